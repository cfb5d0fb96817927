(** la/flabel.py and la/src/cflabel.pyx: label list functions.

    Labels are hashable values with decidable equality; a dictionary is an
    insertion ordered association list. *)
From Verif Require Export Lab.

Section listmap.
  Context `{EqDecision A}.

  (** [dict(zip(list1, range(len(list1))))]: la/flabel.py:73 and 150. *)
  Definition list1map (list1 : list A) : pydict A nat := dict_zip list1 (seq 0 (length list1)).

  (** [listmap], pure Python version: la/flabel.py:10-78. *)
  Definition listmap (list1 list2 : list A) (ignore_unmappable : bool) : res (list nat) :=
    let d := list1map list1 in
    if ignore_unmappable then
      mapR (fun i => of_opt KeyError (dict_get d i))
           (filter (fun i => is_Some (dict_get d i)) list2)
    else mapR (fun i => of_opt KeyError (dict_get d i)) list2.

  (** [listmap_fill], pure Python version: la/flabel.py:87-157.  The loop
      carries the position [i], the list being overwritten and the list of
      unmappable positions.  Simplification: [fill] is an integer. *)
  Definition listmap_fill_step (d : pydict A nat) (st : Z * list Z * list nat) (li2 : A)
    : Z * list Z * list nat :=
    let '(i, index, index_missing) := st in
    let i := (i + 1)%Z in
    match dict_get d li2 with
    | Some p => (i, <[Z.to_nat i := Z.of_nat p]> index, index_missing)
    | None => (i, index, index_missing ++ [Z.to_nat i])
    end.
  Definition listmap_fill (list1 list2 : list A) (fill : Z) : list Z * list nat :=
    let '(_, index, index_missing) :=
      fold_left (listmap_fill_step (list1map list1)) list2
        ((-1)%Z, replicate (length list2) fill, []) in
    (index, index_missing).

  (** The dictionary of the Cython version, filled by an index loop:
      la/src/cflabel.pyx:69-70 and 148-149. *)
  Definition c_list1map (list1 : list A) : res (pydict A nat) :=
    foldM (fun d i => x ← of_opt IndexError (list1 !! i); Ok (dict_set x i d))
      [] (seq 0 (length list1)).

  (** [listmap], Cython version: la/src/cflabel.pyx:5-82.  Simplification:
      C ints do not overflow. *)
  Definition c_listmap (list1 list2 : list A) (ignore_unmappable : bool) : res (list nat) :=
    d ← c_list1map list1;
    if ignore_unmappable then
      foldM (fun idx i => x ← of_opt IndexError (list2 !! i);
               match dict_get d x with Some p => Ok (idx ++ [p]) | None => Ok idx end)
        [] (seq 0 (length list2))
    else
      foldM (fun idx i => x ← of_opt IndexError (list2 !! i);
               p ← of_opt KeyError (dict_get d x);
               Ok (<[i := p]> idx))
        (replicate (length list2) 0) (seq 0 (length list2)).

  (** [listmap_fill], Cython version: la/src/cflabel.pyx:84-155. *)
  Definition c_listmap_fill (list1 list2 : list A) (fill : Z) : res (list Z * list nat) :=
    d ← c_list1map list1;
    foldM (fun st i => x ← of_opt IndexError (list2 !! i);
             match dict_get d x with
             | Some p => Ok (<[i := Z.of_nat p]> st.1, st.2)
             | None => Ok (st.1, st.2 ++ [i])
             end)
      (replicate (length list2) fill, []) (seq 0 (length list2)).

  (** [flattenlabel]: la/flabel.py:162-184.  The loop body at lines 174-179
      and the function; [order_c] is [order == 'C'], the result is the single
      axis label (the function wraps it in a list). *)
  Definition flatten_step (idx : list (list A)) (x : list A) : list (list A) :=
    x ≫= fun y => idx ≫= fun i => [i ++ [y]].
  Definition flattenlabel_order (label : list (list A)) (order_c : bool) : list (list A) :=
    let label := if order_c then reverse label else label in
    let idx := fold_left flatten_step label [[]] in
    if order_c then reverse <$> idx else idx.
  Definition flattenlabel (label : list (list A)) (order : string) : res (list (list A)) :=
    if decide (order = "C") then Ok (flattenlabel_order label true)
    else if decide (order = "F") then Ok (flattenlabel_order label false)
    else Err ValueError.
End listmap.

(** [list2index]: la/flabel.py:186-190. *)
Definition list2index (L : list lab) : res (list nat * list lab) :=
  uL ← sorted_set L;
  let idx := dict_zip uL (seq 0 (length uL)) in
  r ← mapR (fun x => of_opt KeyError (dict_get idx x)) L;
  Ok (r, uL).
