(** The class lara: an archived larry that is read and changed by indexing,
    la/io.py:255-368.  The file is given explicitly: every access opens it
    anew.  Simplification: files left open by exceptions are not modelled. *)
From Verif Require Export Archive Index.

(** * Indexing a h5py dataset *)

(** The rules of h5py 2.0 to 2.2 for one entry of an index and an axis of
    length [n]: slices must have a positive step and select something; lists
    must be in increasing order.  Simplification: a list or an array must not
    hold negative numbers. *)
Definition h5_list (n : nat) (ps : list nat) : res ritem :=
  if decide (ps = []) then Err TypeError
  else if forallb (fun p : nat * nat => bool_decide (p.1 < p.2)) (zip ps (tail ps)) then
    if decide (Forall (fun p => p < n) ps) then Ok (RList ps) else Err ValueError
  else Err TypeError.
Definition h5_resolve (n : nat) (it : item) : res ritem :=
  match it with
  | IInt z => p ← of_opt ValueError (py_index n z); Ok (RInt p)
  | ISlice s =>
      if decide (default 1%Z (s_step s) < 1)%Z then Err ValueError
      else ps ← slice_positions s n;
           if decide (ps = []) then Err ValueError else Ok (RSlice ps)
  | IList zs => if decide (Forall (fun z => (0 <= z)%Z) zs) then h5_list n (Z.to_nat <$> zs) else Err ValueError
  | IBools bs => h5_list n (true_positions bs)
  | ILarry m => h5_list n (true_positions (bools_of m))
  end.
(** The shape of [x[items]] and the position of each of its elements: every
    entry selects from its own axis, which stays in its place; at most one list
    is allowed. *)
Definition as_slice (r : ritem) : ritem := match r with RList ps => RSlice ps | _ => r end.
Definition h5_select (sh : list nat) (items : list item) : res (list nat * (list nat -> option (list nat))) :=
  if decide (length sh < length items) then Err TypeError
  else
    rs ← mapR (fun q : nat * item => h5_resolve q.1 q.2)
              (zip sh (items ++ replicate (length sh - length items) (ISlice slice_all)));
    if decide (1 < length (list_lens rs)) then Err TypeError
    else Ok (slice_lens (as_slice <$> rs), weave (as_slice <$> rs) 0).
(** [x[items]] and [x[items] = v] for a dataset [x]. *)
Definition h5_getitem {A} (a : arr A) (items : list item) : res (arr A) :=
  s ← h5_select (shape a) items;
  of_opt ValueError (gather a s.1 s.2).
Definition h5_setitem (x : nda) (items : list item) (v : val) : res nda :=
  u ← store (nd_dtype x) v;
  s ← h5_select (nd_shape x) items;
  b ← foldM (fun b idx => p ← of_opt IndexError (s.2 idx); Ok (arr_set b p u)) (nd_arr x) (indices s.1);
  Ok (Nda (nd_dtype x) b).

(** * The class *)

Record lara := Lara { la_key : string; la_label : list (list lab) }.
(** [f[key]['x']]. *)
Definition h5_x (f : node) (key : string) : res nda :=
  n ← of_opt KeyError (h5_get f key);
  match n with
  | NGroup _ ms => match dict_get ms "x"%string with Some (NX x) => Ok x | _ => Err KeyError end
  | _ => Err KeyError
  end.
(** [io[key]]: la/io.py:163-174 and [lara.__init__] (309-313): the labels are
    read now, the data not. *)
Definition lara_open (f : node) (key : string) : res lara :=
  n ← of_opt KeyError (h5_get f key);
  if is_archived n then label ← load_label n; Ok (Lara key label) else Err KeyError.
(** The data and the labels that indexing works with: la/io.py:330-336. *)
Definition lara_larry (f : node) (l : lara) : res larry := x ← h5_x f (la_key l); Ok (Larry x (la_label l)).

(** [l[index]]: la/io.py:330-336 with [larry.__getitem__]
    (la/deflarry.py:1729-1887), where [self.x] is a dataset.  Datasets have no
    [take] and laras have no [copylabel]. *)
Definition lara_getitem (f : node) (l : lara) (ix : subscript) : res gres :=
  y ← lara_larry f l;
  match ix with
  | XInt z =>
      n ← of_opt IndexError (lshape y !! 0);
      if decide (Z.of_nat n <= z)%Z then Err IndexError
      else
        b ← h5_getitem (larr y) [IInt z];
        if decide (lndim y <= 1) then v ← of_opt IndexError (aget b []); Ok (GVal v)
        else Ok (GLar (Larry (Nda (ldtype y) b) (tail (llabel y))))
  | XTuple items =>
      label ← tuple_label y items;
      b ← h5_getitem (larr y) items;
      if forallb b_int items then
        match shape b with
        | [] => v ← of_opt IndexError (aget b []); Ok (GVal v)
        | _ => Ok (GArr (Nda (ldtype y) b))
        end
      else z ← new_larry (Nda (ldtype y) b) label (existsb b_list items); Ok (GLar z)
  | XSlice s =>
      a ← axis_label y 0;
      a' ← py_slice s a;
      b ← h5_getitem (larr y) [ISlice s];
      Ok (GLar (Larry (Nda (ldtype y) b) (<[0 := a']> (llabel y))))
  | XList zs =>
      a ← axis_label y 0;
      lab ← of_opt IndexError (mapM (py_get a) zs);
      if py_nodup lab then Err AttributeError else Err IndexError
  | XBools bs =>
      a ← axis_label y 0;
      _ ← of_opt IndexError (mapM (a !!.) (true_positions bs));
      if decide (lshape y = [length bs]) then _ ← h5_getitem (larr y) [IBools bs]; Err AttributeError
      else Err TypeError
  | XLarry m =>
      if decide (ldtype m <> DBool) then Err IndexError
      else if decide (lndim m <> 1) then Err IndexError
      else if decide (llabel y !! 0 <> llabel m !! 0) then Err IndexError
      else Err AttributeError
  end.

(** Write the data of the larry at a key. *)
Definition put_x (x : nda) (n : node) : option node := match n with NX _ => Some (NX x) | _ => None end.
(** [l[index] = value] when the index is not a larry: la/io.py:338-343 with
    [larry.__setitem__] (la/deflarry.py:2115-2125).  For a larry as value,
    [self[index]] leaves [self.x] as [None] (la/io.py:335). *)
Definition lara_setitem (l : lara) (ix : subscript) (value : setval) : prog node unit :=
  f <- pget;;
  x <- plift (h5_x f (la_key l));;
  match value with
  | SLarry z =>
      g <- plift (lara_getitem f l ix);;
      match g with
      | GLar z0 => if decide (llabel z0 = llabel z) then praise TypeError else praise IndexError
      | _ => praise AttributeError
      end
  | SVal v =>
      _ <- match ix with
           | XBools bs => if decide (nd_shape x = [length bs]) then pret () else praise TypeError
           | _ => pret ()
           end;;
      x' <- plift (h5_setitem x (index_items ix) v);;
      h5_alter KeyError (put_x x') (path_of (la_key l) ++ ["x"%string])
  end.

(** [l.shape], [l.dtype], [l.ndim] and [l.size]: la/io.py:345-368. *)
Definition lara_shape (f : node) (l : lara) : res (list nat) := x ← h5_x f (la_key l); Ok (nd_shape x).
Definition lara_dtype (f : node) (l : lara) : res dtype := x ← h5_x f (la_key l); Ok (nd_dtype x).
Definition lara_ndim (f : node) (l : lara) : res nat := s ← lara_shape f l; Ok (length s).
Definition lara_size (f : node) (l : lara) : res nat := s ← lara_shape f l; Ok (foldr Nat.mul 1 s).
