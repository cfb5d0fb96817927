(** Alignment: morph, morph_like, merge, sortaxis and the alignment of binary
    operations (la/deflarry.py), and align, align_axis, union, intersection
    (la/flarry.py). *)
From Verif Require Export Missing.

(** [y.morph(label, axis)]: la/deflarry.py:3289-3361. *)
Definition morph (y : larry) (label : list lab) (axis : Z) : res larry :=
  if decide (Z.of_nat (lndim y) <= axis)%Z then Err IndexError
  else
    ax ← py_axis y axis;
    old ← axis_label y ax;
    if decide (old = label) then Ok (larry_copy y)
    else
      let '(idx, idx_miss) := listmap_fill old label 0 in
      x ← (if decide (length idx = length idx_miss) then
             let shape := <[ax := length idx]> (lshape y) in
             nans shape (match missing_marker (ldtype y) with
                         | None => DFloat
                         | Some _ => ldtype y
                         end)
           else
             x ← nda_take (lx y) idx ax;
             match idx_miss with
             | [] => Ok x
             | _ =>
                 match missing_marker (nd_dtype x) with
                 | Some miss => put_axis x idx_miss ax miss
                 | None => let x := astype_float x in
                           miss ← of_opt TypeError (missing_marker (nd_dtype x));
                           put_axis x idx_miss ax miss
                 end
             end);
      if py_nodup label then Ok (Larry x (<[ax := label]> (llabel y)))
      else Err IndexError.

(** [y.morph_like(lar)]: la/deflarry.py:3363-3420.  [self.ndim == 0] does not
    occur for well formed larrys. *)
Definition morph_like (y lar : larry) : res larry :=
  if decide (lndim y <> lndim lar) then Err IndexError
  else foldM (fun y i => l ← getlabel lar (Z.of_nat i); morph y l (Z.of_nat i))
         y (seq 0 (lndim y)).

(** [y.sortaxis(axis, reverse)]: la/deflarry.py:3613-3700.  Note that the
    labels sorted are those of [self]. *)
Definition sortaxis_step (reverse : bool) (self y : larry) (axis : Z) : res larry :=
  n ← of_opt IndexError (py_get (lshape self) axis);
  if decide (1 < n) then
    ax ← py_axis self axis;
    l ← axis_label self ax;
    index ← (if reverse then py_sorted_rev l else py_sorted l);
    morph y index axis
  else Ok (larry_copy y).
Definition sortaxis (y : larry) (axis : option Z) (reverse : bool) : res larry :=
  foldM (sortaxis_step reverse y) y (axes_of y axis).

(** [set(l1).intersection(l2)], [set(l1).union(l2)] followed by [sort()]. *)
Definition sorted_inter (l1 l2 : list lab) : res (list lab) :=
  py_sorted (remove_dups (filter (fun a => a ∈ l2) l1)).
Definition sorted_union (l1 l2 : list lab) : res (list lab) := sorted_set (l1 ++ l2).

(** The mask of [y.merge] (la/deflarry.py:3475-3489): what counts as data. *)
Definition val_isfinite (v : val) : bool :=
  match v with
  | VFloat n => is_finite n
  | VInt _ | VBool _ => true
  | _ => false
  end.
Definition merge_mask (x : nda) : arr bool :=
  match nd_dtype x with
  | DObj => amap (fun v => bool_decide (v <> VNone)) (nd_arr x)
  | DStr => amap (fun v => bool_decide (v <> VStr EmptyString)) (nd_arr x)
  | _ => amap val_isfinite (nd_arr x)
  end.

(** Whether numpy's 'safe' casting rule allows the conversion; [np.putmask]
    with an array of values requires it. *)
Definition safe_cast (from to : dtype) : bool :=
  match from, to with
  | _, DObj => true
  | DBool, (DBool | DInt | DFloat) => true
  | DInt, (DInt | DFloat) => true
  | DFloat, DFloat => true
  | DStr, DStr => true
  | _, _ => false
  end.
Definition any_true (m : arr bool) : bool := existsb id (data m).
Definition mask_and (m1 m2 : arr bool) : arr bool := azip andb m1 m2.

(** [np.putmask(x, mask, values)] for arrays of equal shape. *)
Definition putmask_arr (x : nda) (mask : arr bool) (values : nda) : res nda :=
  if safe_cast (nd_dtype values) (nd_dtype x) then
    vs ← mapR (store (nd_dtype x)) (data (nd_arr values));
    Ok (Nda (nd_dtype x)
          (azip (fun xv (m : bool) => if m then xv.2 else xv.1)
                (azip pair (nd_arr x) (Arr (nd_shape values) vs)) mask))
  else Err TypeError.

(** Kinds of dtype that [merge] keeps apart. *)
Definition numeric (dt : dtype) : bool :=
  match dt with DFloat | DInt | DBool => true | DStr | DObj => false end.

(** The loop of [merge] aligning axis [ax] of both larrys:
    la/deflarry.py:3468-3473. *)
Definition merge_align_step (st : larry * larry) (ax : nat) : res (larry * larry) :=
  let '(lar1, lar2) := st in
  l1 ← axis_label lar1 ax;
  l2 ← axis_label lar2 ax;
  if decide (l1 = l2) then Ok (lar1, lar2)
  else
    mergelabel ← sorted_set (l1 ++ l2);
    lar1 ← morph lar1 mergelabel (Z.of_nat ax);
    lar2 ← morph lar2 mergelabel (Z.of_nat ax);
    Ok (lar1, lar2).

(** [y.merge(other, update)]: la/deflarry.py:3422-3503.  Dtypes of different
    kind never merge: an object array with anything else is trapped at 3494,
    [np.isfinite] raises TypeError on a str array (3489), and with
    [self.dtype] str and a numeric [other] the comparison at 3487 is the
    Python constant [True], which has no method [any] (3500).
    Writing goes to [lar1.x], which is [self.x] when all labels are equal:
    that sharing is the subject of Heap.v. *)
Definition larry_merge (self other : larry) (update : bool) : res larry :=
  if decide (lndim self <> lndim other) then Err IndexError
  else
    st ← foldM merge_align_step (self, other) (seq 0 (lndim self));
    let '(lar1, lar2) := st in
    let dt1 := ldtype self in
    let dt2 := ldtype other in
    let mask1 := merge_mask (lx lar1) in
    if decide (dt1 = dt2 \/ numeric dt1 = true /\ numeric dt2 = true) then
      let mask2 := merge_mask (lx lar2) in
      if negb update && any_true (mask_and mask1 mask2) then Err ValueError
      else if any_true mask2 then
        x ← putmask_arr (lx lar1) mask2 (lx lar2);
        Ok (Larry x (llabel lar1))
      else Ok lar1
    else if decide (dt1 = DStr /\ numeric dt2 = true) then
      if negb update && any_true mask1 then Err ValueError else Err AttributeError
    else Err TypeError.

(** [self.__align(other)]: la/deflarry.py:1044-1065. *)
Definition op_align_step (label1 label2 : list (list lab)) (st : nda * nda * list (list lab)) (ax : nat)
  : res (nda * nda * list (list lab)) :=
  let '(x, y, label) := st in
  ls ← of_opt IndexError (label1 !! ax);
  lo ← of_opt IndexError (label2 !! ax);
  if decide (ls = lo) then Ok (x, y, label ++ [ls])
  else
    lab ← sorted_inter ls lo;
    ids ← listmap ls lab false;
    ido ← listmap lo lab false;
    x ← nda_take x (Z.of_nat <$> ids) ax;
    y ← nda_take y (Z.of_nat <$> ido) ax;
    Ok (x, y, label ++ [lab]).
Definition op_align (self other : larry) : res (nda * nda * list (list lab)) :=
  if decide (lndim self <> lndim other) then Err IndexError
  else foldM (op_align_step (llabel self) (llabel other)) (lx self, lx other, [])
         (seq 0 (lndim self)).

(** * align_raw *)
(** Filling the positions without source: la/flarry.py:305-316 (and 317-328,
    336-351, 358-369).  [miss] is the variable [miss1]: [None] for its initial
    undefined value, [Some None] for [NotImplemented]; [dt0] is the dtype of
    the input larry. *)
Definition fill_missing (dt0 : dtype) (cast : bool) (x : nda) (miss : option (option val))
    (idx_miss : list nat) (ax : nat) : res (nda * option (option val)) :=
  match idx_miss with
  | [] => Ok (x, miss)
  | _ =>
      let m := match miss with None => missing_marker dt0 | Some m => m end in
      match m with
      | Some v => x ← put_axis x idx_miss ax v; Ok (x, Some (Some v))
      | None =>
          if cast then
            let x := astype_float x in
            v ← of_opt TypeError (missing_marker (nd_dtype x));
            x ← put_axis x idx_miss ax v;
            Ok (x, Some (Some v))
          else Err TypeError
      end
  end.

(** Move axis [ax] of [x] from label [old] to label [new]. *)
Definition refill (dt0 : dtype) (cast : bool) (x : nda) (miss : option (option val))
    (old new : list lab) (ax : nat) : res (nda * option (option val)) :=
  let '(idx, idx_miss) := listmap_fill old new 0 in
  x ← nda_take x idx ax;
  fill_missing dt0 cast x miss idx_miss ax.

Record align_st := AlignSt {
  al_x1 : nda; al_m1 : option (option val); al_view1 : bool;
  al_x2 : nda; al_m2 : option (option val); al_view2 : bool;
  al_label : list (option (list lab)) }.

(** Body of the loop: la/flarry.py:279-375.  In the outer join numpy takes
    from [x1] and [x2] before filling either; the order of the two possible
    exceptions is the same here. *)
Definition align_step (lar1 lar2 : larry) (cast : bool) (js : list join_type) (st : align_st) (ax : nat)
  : res align_st :=
  let '(AlignSt x1 m1 v1 x2 m2 v2 label) := st in
  list1 ← of_opt IndexError (llabel lar1 !! ax);
  list2 ← of_opt IndexError (llabel lar2 !! ax);
  joinax ← of_opt IndexError (js !! ax);
  match joinax with
  | JInner =>
      if decide (list1 = list2) then Ok (AlignSt x1 m1 v1 x2 m2 v2 (label ++ [Some list1]))
      else
        list3 ← sorted_inter list1 list2;
        idx1 ← listmap list1 list3 false;
        idx2 ← listmap list2 list3 false;
        x1 ← nda_take x1 (Z.of_nat <$> idx1) ax;
        x2 ← nda_take x2 (Z.of_nat <$> idx2) ax;
        Ok (AlignSt x1 m1 false x2 m2 false (label ++ [Some list3]))
  | JOuter =>
      if decide (list1 = list2) then Ok (AlignSt x1 m1 v1 x2 m2 v2 (label ++ [Some list1]))
      else
        list3 ← sorted_union list1 list2;
        let '(idx1, idx1_miss) := listmap_fill list1 list3 0 in
        let '(idx2, idx2_miss) := listmap_fill list2 list3 0 in
        x1 ← nda_take x1 idx1 ax;
        x2 ← nda_take x2 idx2 ax;
        p1 ← fill_missing (ldtype lar1) cast x1 m1 idx1_miss ax;
        p2 ← fill_missing (ldtype lar2) cast x2 m2 idx2_miss ax;
        Ok (AlignSt p1.1 p1.2 false p2.1 p2.2 false (label ++ [Some list3]))
  | JLeft =>
      if decide (list1 = list2) then Ok (AlignSt x1 m1 v1 x2 m2 v2 (label ++ [Some list1]))
      else
        p2 ← refill (ldtype lar2) cast x2 m2 list2 list1 ax;
        Ok (AlignSt x1 m1 v1 p2.1 p2.2 false (label ++ [Some list1]))
  | JRight =>
      if decide (list1 = list2) then Ok (AlignSt x1 m1 v1 x2 m2 v2 (label ++ [Some list2]))
      else
        p1 ← refill (ldtype lar1) cast x1 m1 list1 list2 ax;
        Ok (AlignSt p1.1 p1.2 false x2 m2 v2 (label ++ [Some list2]))
  | JSkip => Ok (AlignSt x1 m1 v1 x2 m2 v2 (label ++ [None]))
  | JBad => Err ValueError
  end.

(** [align_raw(lar1, lar2, join, cast)]: la/flarry.py:132-377. *)
Definition align_raw (lar1 lar2 : larry) (j : join_arg) (cast : bool) : res align_st :=
  let nd := lndim lar2 in
  if decide (lndim lar1 <> nd) then Err ValueError
  else
    js ← match j with
         | JOne j => Ok (replicate nd j)
         | JList js => if decide (length js <> nd) then Err ValueError else Ok js
         | JOther => Err TypeError
         end;
    foldM (align_step lar1 lar2 cast js)
      (AlignSt (lx lar1) None true (lx lar2) None true []) (seq 0 nd).

(** [list(lar.label[j]) if lab is None else list(lab)] for every axis:
    la/flarry.py:109-114. *)
Definition own_label (lar : larry) (label : list (option (list lab))) : res (list (list lab)) :=
  mapR (fun p => match p.2 with
                 | None => of_opt IndexError (llabel lar !! p.1)
                 | Some lab => Ok lab
                 end) (zip (seq 0 (length label)) label).

(** [align(lar1, lar2, join, cast)]: la/flarry.py:18-130. *)
Definition align (lar1 lar2 : larry) (j : join_arg) (cast : bool) : res (larry * larry) :=
  st ← align_raw lar1 lar2 j cast;
  label1 ← own_label lar1 (al_label st);
  label2 ← own_label lar2 (al_label st);
  Ok (Larry (al_x1 st) label1, Larry (al_x2 st) label2).

(** [y.label[axis]] for a Python index. *)
Definition label_at (y : larry) (axis : Z) : res (list lab) :=
  ax ← py_axis y axis; axis_label y ax.

(** [align_axis(lars, axis, join)]: la/flarry.py:379-520.  [axis] is the list
    of axes (an int stands for that int repeated, line 488).  Lines 506-510
    use [axis[i]] for the larry [lars[i+1]]. *)
Definition align_axis_label (lars : list larry) (axis : list Z) (j : join_type) : res (list lab) :=
  match lars with
  | [] => Err IndexError
  | lar0 :: rest =>
      a0 ← of_opt IndexError (head axis);
      match j with
      | JLeft => label_at lar0 a0
      | JRight =>
          larn ← of_opt IndexError (last lars);
          an ← of_opt IndexError (last axis);
          label_at larn an
      | JInner =>
          l0 ← label_at lar0 a0;
          l ← foldM (fun label p =>
                 a ← of_opt IndexError (axis !! p.1);
                 l ← label_at p.2 a;
                 Ok (filter (fun x => x ∈ l) label))
               (remove_dups l0) (zip (seq 0 (length rest)) rest);
          py_sorted l
      | JOuter =>
          l0 ← label_at lar0 a0;
          l ← foldM (fun label p =>
                 a ← of_opt IndexError (axis !! p.1);
                 l ← label_at p.2 a;
                 Ok (remove_dups (label ++ l)))
               (remove_dups l0) (zip (seq 0 (length rest)) rest);
          py_sorted l
      | JSkip | JBad => Err ValueError
      end
  end.
Definition align_axis (lars : list larry) (axis : list Z) (j : join_type) : res (list larry) :=
  _ ← mapR (fun p =>
        a ← of_opt IndexError (axis !! p.1);
        if decide (Z.of_nat (lndim p.2) <= a \/ a < - Z.of_nat (lndim p.2))%Z
        then Err ValueError else Ok ()) (zip (seq 0 (length lars)) lars);
  if decide (j = JSkip \/ j = JBad) then Err ValueError
  else
    label ← align_axis_label lars axis j;
    mapR (fun p => a ← of_opt IndexError (axis !! p.1); morph p.2 label a)
      (zip (seq 0 (length lars)) lars).

(** [isaligned(lar1, lar2, axis)]: la/flarry.py:522-568. *)
Definition isaligned (lar1 lar2 : larry) (axis : option Z) : res bool :=
  match axis with
  | None => Ok (bool_decide (llabel lar1 = llabel lar2))
  | Some a => l1 ← label_at lar1 a; l2 ← label_at lar2 a; Ok (bool_decide (l1 = l2))
  end.

(** [union(axis, *args)]: la/flarry.py:570-609. *)
Definition union_labels (axis : Z) (args : list larry) : res (list lab) :=
  rc ← foldM (fun rc arg => l ← label_at arg axis; Ok (remove_dups (rc ++ l))) [] args;
  py_sorted rc.

(** [intersection(axis, *args)]: la/flarry.py:611-651. *)
Definition intersection_labels (axis : Z) (args : list larry) : res (list lab) :=
  match args with
  | [] => Err IndexError
  | a0 :: rest =>
      l0 ← label_at a0 axis;
      rc ← foldM (fun rc arg => l ← label_at arg axis; Ok (filter (fun x => x ∈ l) rc))
             (remove_dups l0) rest;
      py_sorted rc
  end.
