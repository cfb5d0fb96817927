(** Indexing: numpy's rules for index tuples and [__getitem__],
    [__setitem__] and [lix] of larry (la/deflarry.py:1729-1887, 2082-2125,
    5011-5172). *)
From Verif Require Export SpecIndex Numeric.

(** * numpy *)

(** Positions of the true elements ([np.nonzero]). *)
Fixpoint true_from (n : nat) (bs : list bool) : list nat :=
  match bs with
  | [] => []
  | b :: bs' => if b then n :: true_from (S n) bs' else true_from (S n) bs'
  end.
Definition true_positions (bs : list bool) : list nat := true_from 0 bs.

(** An index entry resolved against an axis of length [n].  A bool array
    stands for the positions of its true elements. *)
Inductive ritem := RInt (p : nat) | RSlice (ps : list nat) | RList (ps : list nat).
Definition bools_of (m : larry) : list bool :=
  (fun v => match v with VBool b => b | _ => false end) <$> data (larr m).
Definition resolve (n : nat) (it : item) : res ritem :=
  match it with
  | IInt z => p ← of_opt IndexError (py_index n z); Ok (RInt p)
  | ISlice s => ps ← slice_positions s n; Ok (RSlice ps)
  | IList l => ps ← of_opt IndexError (mapM (py_index n) l); Ok (RList ps)
  | IBools l =>
      let ps := true_positions l in
      if decide (Forall (fun p => p < n) ps) then Ok (RList ps) else Err IndexError
  | ILarry m =>
      let ps := true_positions (bools_of m) in
      if decide (Forall (fun p => p < n) ps) then Ok (RList ps) else Err IndexError
  end.

Definition r_slice (r : ritem) : bool := match r with RSlice _ => true | _ => false end.
Definition slice_lens (rs : list ritem) : list nat :=
  omap (fun r => match r with RSlice ps => Some (length ps) | _ => None end) rs.
Definition list_lens (rs : list ritem) : list nat :=
  omap (fun r => match r with RList ps => Some (length ps) | _ => None end) rs.

(** The position in [x] given the position [k] along the lists and [sl] along
    the slices. *)
Fixpoint weave (rs : list ritem) (k : nat) (sl : list nat) : option (list nat) :=
  match rs, sl with
  | [], [] => Some []
  | RInt p :: rs', _ => r ← weave rs' k sl; Some (p :: r)
  | RList ps :: rs', _ =>
      p ← ps !! (if decide (length ps = 1) then 0 else k);
      r ← weave rs' k sl; Some (p :: r)
  | RSlice ps :: rs', i :: sl' => p ← ps !! i; r ← weave rs' k sl'; Some (p :: r)
  | _, _ => None
  end.

(** Lists and integers next to each other? *)
Fixpoint slices_only (rs : list ritem) : bool :=
  match rs with [] => true | r :: rs' => r_slice r && slices_only rs' end.
Fixpoint adv_then_slices (rs : list ritem) : bool :=
  match rs with [] => true | r :: rs' => if r_slice r then slices_only rs' else adv_then_slices rs' end.
Fixpoint adjacent (rs : list ritem) : bool :=
  match rs with [] => true | r :: rs' => if r_slice r then adjacent rs' else adv_then_slices rs' end.
Fixpoint slices_before (rs : list ritem) : nat :=
  match rs with r :: rs' => if r_slice r then S (slices_before rs') else 0 | [] => 0 end.

(** Length of lists broadcast against each other. *)
Definition broadcast_len (ls : list nat) : res nat :=
  match filter (fun n => n <> 1) ls with
  | [] => Ok 1
  | n :: rest => if forallb (fun m => bool_decide (m = n)) rest then Ok n else Err ValueError
  end.

(** Shape of [x[items]] and the position in [x] of each of its elements.  With
    a list in the index, integers count as lists too; the list dimension is
    put where the lists are if they are adjacent, first otherwise. *)
Definition np_select (sh : list nat) (items : list item) : res (list nat * (list nat -> option (list nat))) :=
  if decide (length sh < length items) then Err IndexError
  else
    rs ← mapR (fun q : nat * item => resolve q.1 q.2)
              (zip sh (items ++ replicate (length sh - length items) (ISlice slice_all)));
    match list_lens rs with
    | [] => Ok (slice_lens rs, weave rs 0)
    | lens =>
        n ← broadcast_len lens;
        let p := if adjacent rs then slices_before rs else 0 in
        Ok (insert_at p n (slice_lens rs), fun idx => k ← idx !! p; weave rs k (remove_at p idx))
    end.

(** [x[items]]. *)
Definition np_getitem {A} (a : arr A) (items : list item) : res (arr A) :=
  s ← np_select (shape a) items;
  of_opt IndexError (gather a s.1 s.2).

(** [x[items] = v], the element for output position [idx] being [v idx]. *)
Definition np_setitem {A} (a : arr A) (items : list item) (v : list nat -> res A) : res (arr A) :=
  s ← np_select (shape a) items;
  foldM (fun b idx => p ← of_opt IndexError (s.2 idx); u ← v idx; Ok (arr_set b p u)) a (indices s.1).

(** * [__getitem__] *)

(** The labels selected by one entry of an index tuple (1771-1828); [n] is the
    length of the axis in the data. *)
Definition item_label (n : nat) (l : list lab) (it : item) : res (option (list lab)) :=
  match it with
  | IInt z => if decide (Z.of_nat n <= z)%Z then Err IndexError else Ok None
  | ISlice s => l' ← py_slice s l; Ok (Some l')
  | IList zs => l' ← of_opt IndexError (mapM (py_get l) zs); Ok (Some l')
  | IBools bs => l' ← of_opt IndexError (mapM (l !!.) (true_positions bs)); Ok (Some l')
  | ILarry m =>
      if decide (ldtype m <> DBool) then Err IndexError
      else if decide (lndim m <> 1) then Err IndexError
      else if decide (llabel m !! 0 <> Some l) then Err IndexError
      else l' ← of_opt IndexError (mapM (l !!.) (true_positions (bools_of m))); Ok (Some l')
  end.
Definition b_int (it : item) : bool := match it with IInt _ => true | _ => false end.
Definition b_list (it : item) : bool := match it with IInt _ | ISlice _ => false | _ => true end.

(** [if lab is not None: label.append(lab)] (1829-1830). *)
Definition somes {A} (l : list (option A)) : list A := omap (M:=list) (fun o => o) l.
(** Labels of the result of a tuple index (1767-1828). *)
Definition axis_sel (y : larry) (items : list item) (ax : nat) : res (option (list lab)) :=
  n ← of_opt IndexError (lshape y !! ax);
  l ← axis_label y ax;
  match items !! ax return res (option (list lab)) with
  | Some it => item_label n l it
  | None => Ok (Some l)
  end.
Definition tuple_label (y : larry) (items : list item) : res (list (list lab)) :=
  r ← mapR (axis_sel y items) (seq 0 (lndim y));
  Ok (somes r).

(** A new larry, checked by the constructor if [validate]. *)
Definition new_larry (x : nda) (label : list (list lab)) (validate : bool) : res larry :=
  if validate then make x (Some label) else Ok (Larry x label).

(** [y[index]]: la/deflarry.py:1729-1887.  Integer arrays are taken as lists.
    A bool array is read as the positions of its true elements, also if it is
    shorter than the axis (numpy before 1.13). *)
Definition larry_getitem (y : larry) (ix : subscript) : res gres :=
  match ix with
  | XInt z =>
      n ← of_opt IndexError (lshape y !! 0);
      if decide (Z.of_nat n <= z)%Z then Err IndexError
      else
        b ← np_getitem (larr y) [IInt z];
        if decide (lndim y <= 1) then v ← of_opt IndexError (aget b []); Ok (GVal v)
        else Ok (GLar (Larry (Nda (ldtype y) b) (tail (llabel y))))
  | XTuple items =>
      label ← tuple_label y items;
      b ← np_getitem (larr y) items;
      if forallb b_int items then
        match shape b with
        | [] => v ← of_opt IndexError (aget b []); Ok (GVal v)
        | _ => Ok (GArr (Nda (ldtype y) b))
        end
      else z ← new_larry (Nda (ldtype y) b) label (existsb b_list items); Ok (GLar z)
  | XSlice s =>
      l ← axis_label y 0;
      l' ← py_slice s l;
      b ← np_getitem (larr y) [ISlice s];
      Ok (GLar (Larry (Nda (ldtype y) b) (<[0 := l']> (llabel y))))
  | XList zs =>
      l ← axis_label y 0;
      lab ← of_opt IndexError (mapM (py_get l) zs);
      if py_nodup lab then
        b ← np_take (larr y) zs 0;
        Ok (GLar (Larry (Nda (ldtype y) b) (<[0 := lab]> (llabel y))))
      else Err IndexError
  | XBools bs =>
      l ← axis_label y 0;
      lab ← of_opt IndexError (mapM (l !!.) (true_positions bs));
      b ← np_getitem (larr y) [IBools bs];
      Ok (GLar (Larry (Nda (ldtype y) b) (<[0 := lab]> (llabel y))))
  | XLarry m =>
      if decide (ldtype m <> DBool) then Err IndexError
      else if decide (lndim m <> 1) then Err IndexError
      else if decide (llabel y !! 0 <> llabel m !! 0) then Err IndexError
      else
        l ← axis_label y 0;
        lab ← of_opt IndexError (mapM (l !!.) (true_positions (bools_of m)));
        b ← np_getitem (larr y) [ILarry m];
        z ← new_larry (Nda (ldtype y) b) (<[0 := lab]> (llabel y)) true;
        Ok (GLar z)
  end.

(** * [__setitem__] *)

(** The value assigned: a scalar or a larry. *)
Inductive setval := SVal (v : val) | SLarry (z : larry).

(** [y[index] = value] when the index is not a larry: la/deflarry.py:2115-2125.
    Elements are converted one by one to the dtype of [y].  Simplification:
    assigning NaN to an int array raises. *)
Definition larry_setitem (y : larry) (ix : subscript) (value : setval) : res larry :=
  match value with
  | SLarry z =>
      g ← larry_getitem y ix;
      match g with
      | GLar z0 =>
          if decide (llabel z0 = llabel z) then
            b ← np_setitem (larr y) (index_items ix) (fun idx => v ← of_opt ValueError (aget (larr z) idx); store (ldtype y) v);
            Ok (Larry (Nda (ldtype y) b) (llabel y))
          else Err IndexError
      | _ => Err AttributeError
      end
  | SVal v =>
      u ← store (ldtype y) v;
      b ← np_setitem (larr y) (index_items ix) (fun _ => Ok u);
      Ok (Larry (Nda (ldtype y) b) (llabel y))
  end.
(** [y[mask] = value] for a larry [mask]: la/deflarry.py:2107-2114, for a bool
    [mask] and a scalar. *)
Definition larry_setmask (y m : larry) (v : val) : res larry :=
  if decide (llabel y = llabel m) then
    mask ← of_opt IndexError (match ldtype m with
                              | DBool => Some (amap (fun v => match v with VBool b => b | _ => false end) (larr m))
                              | _ => None
                              end);
    x ← putmask_scalar (lx y) mask v;
    Ok (Larry x (llabel y))
  else Err IndexError.

(** * [lix] *)

(** [labels2indices]: la/deflarry.py:5166-5172. *)
Definition labels2indices (l : list lab) (ls : list lab) : res (list nat) :=
  of_opt ValueError (mapM (fun x => index_of x l) ls).

(** [slicemaker]: la/deflarry.py:5140-5164.  Simplification: the ends are
    integers or lists of labels. *)
Definition slice_end (y : larry) (ax : nat) (e : option lend) : res (option Z) :=
  match e with
  | None => Ok None
  | Some (EIdx z) => Ok (Some z)
  | Some (ELab ls) =>
      if decide (1 < length ls) then Err ValueError
      else x ← of_opt IndexError (ls !! 0);
           i ← labelindex y x (Some (Z.of_nat ax)) true;
           Ok (Some (Z.of_nat i))
  end.
Definition slicemaker (y : larry) (ax : nat) (s : lslice) : res slice :=
  a ← slice_end y ax (l_start s);
  b ← slice_end y ax (l_stop s);
  Ok (Slice a b (l_step s)).

(** Positions and label of one entry of a lix tuple (5047-5064); the label is
    kept only if it has more than one element. *)
Definition lix_item (y : larry) (ax : nat) (it : litem) : res (list Z * option (list lab)) :=
  l ← axis_label y ax;
  match it return res (list Z * option (list lab)) with
  | LLabels ls =>
      ps ← labels2indices l ls;
      Ok (map Z.of_nat ps, if decide (1 < length ls) then Some ls else None)
  | LSl s =>
      s ← slicemaker y ax s;
      ps ← (n ← of_opt IndexError (lshape y !! ax); slice_positions s n);
      l' ← py_slice s l;
      Ok (map Z.of_nat ps, if decide (1 < length l') then Some l' else None)
  | LInt1 z => Ok ([z], None)
  end.
Definition lix_items (y : larry) (items : list litem) : res (list (list Z * option (list lab))) :=
  if decide (length items <= lndim y) then
    let items := items ++ replicate (lndim y - length items) lix_full in
    mapR (fun q : nat * litem => lix_item y q.1 q.2) (zip (seq 0 (lndim y)) items)
  else Err IndexError.

(** [x[np.ix_(ids)]].  An empty list of positions becomes an empty array of
    floats, which cannot be an index (np.ix_ in numpy before 1.9). *)
Definition np_ix_ids (sh : list nat) (ids : list (list Z)) : res (list (list nat)) :=
  if decide (length sh < length ids) then Err IndexError
  else if decide ([] ∈ ids) then Err IndexError
  else mapR (fun q : nat * list Z => of_opt IndexError (mapM (py_index q.1) q.2)) (zip sh ids).
Definition np_ix {A} (a : arr A) (ids : list (list Z)) : res (arr A) :=
  ps ← np_ix_ids (shape a) ids;
  of_opt IndexError (outer_take a ps).

(** [y.lix[index]]: la/deflarry.py:5017-5074. *)
Definition lix_get (y : larry) (ix : lix_index) : res gres :=
  if decide (lshape y = [0]) then Ok (GLar y)
  else if decide (0 ∈ lshape y) then Err ValueError
  else
    match ix with
    | LxLabels ls =>
        l ← axis_label y 0;
        ps ← labels2indices l ls;
        match ps with
        | [p] => larry_getitem y (XInt (Z.of_nat p))
        | _ => larry_getitem y (XList (Z.of_nat <$> ps))
        end
    | LxSlice s => s ← slicemaker y 0 s; larry_getitem y (XSlice s)
    | LxInt z => larry_getitem y (XInt z)
    | LxTuple items =>
        q ← lix_items y items;
        b ← np_ix (larr y) q.*1;
        let x := np_squeeze b in
        match shape x with
        | [] => v ← of_opt IndexError (aget x []); Ok (GVal v)
        | _ => z ← make (Nda (ldtype y) x) (Some (somes q.*2)); Ok (GLar z)
        end
    end.

(** [x[np.ix_(ids)] = v]. *)
Definition np_ix_set {A} (a : arr A) (ids : list (list Z)) (v : list nat -> res A) : res (arr A) :=
  ps ← np_ix_ids (shape a) ids;
  foldM (fun b idx => p ← of_opt IndexError (lookup_all ps idx); u ← v idx; Ok (arr_set b p u)) a (indices (length <$> ps)).

(** [y.lix[index] = value]: la/deflarry.py:5076-5138. *)
Definition lix_set (y : larry) (ix : lix_index) (value : setval) : res larry :=
  if decide (lshape y = [0]) then Err IndexError
  else if decide (0 ∈ lshape y) then Err ValueError
  else
    match ix with
    | LxLabels ls =>
        l ← axis_label y 0;
        ps ← labels2indices l ls;
        match ps with
        | [p] => larry_setitem y (XInt (Z.of_nat p)) value
        | _ => larry_setitem y (XList (Z.of_nat <$> ps)) value
        end
    | LxSlice s => s ← slicemaker y 0 s; larry_setitem y (XSlice s) value
    | LxInt z => larry_setitem y (XInt z) value
    | LxTuple items =>
        q ← lix_items y items;
        v ← match value with
            | SVal v => u ← store (ldtype y) v; Ok (fun _ => Ok u)
            | SLarry z =>
                if decide (lndim z <> length q) then Err IndexError
                else
                  label ← mapR (fun p : list lab * (list Z * option (list lab)) => of_opt IndexError (mapM (py_get p.1) p.2.1))
                               (zip (llabel y) q);
                  if decide (label = llabel z) then
                    Ok (fun idx => v ← of_opt ValueError (aget (larr z) idx); store (ldtype y) v)
                  else Err IndexError
            end;
        b ← np_ix_set (larr y) q.*1 v;
        Ok (Larry (Nda (ldtype y) b) (llabel y))
    end.
