(** Memory: which larrys share arrays and label lists, and which calls write
    to memory that existed before.

    The values a call computes are those of the value model (Larry.v, ...);
    this file adds, call by call, which arrays, lists and larrys are made, which
    are shared and which are written to.  Arrays and lists that are made on the
    way and cannot be reached from the result are left out where they do not
    matter.  The functions of numpy, Bottleneck and la/farray return new arrays
    unless said otherwise here; Python and numpy objects stored in an array are
    taken to be immutable. *)
From Verif Require Export Session.

(** * Memory *)

(** An array is a view of a buffer: for every element, in C order, its
    position in the buffer. *)
Record harr := HArr { a_buf : nat; a_pos : arr nat }.
(** A larry object: its attributes [x] and [label]; [label] is a list object
    whose elements are list objects. *)
Record hobj := HObj { o_x : harr; o_label : nat }.
(** Addresses are positions in these lists, new objects are appended:
    buffers, lists of labels, lists of such lists, larrys. *)
Record heap := Heap {
  h_bufs : list (dtype * list val);
  h_lists : list (list lab);
  h_outers : list (list nat);
  h_objs : list hobj }.

(** A command changes the memory and returns or raises. *)
Definition cmd (A : Type) := heap -> heap * res A.
Global Instance cmd_ret : MRet cmd := fun A a h => (h, Ok a).
Global Instance cmd_bind : MBind cmd := fun A B f m h =>
  match m h with (h', Ok a) => f a h' | (h', Err e) => (h', Err e) end.
Definition lift {A} (r : res A) : cmd A := fun h => (h, r).
Definition ret {A} (a : A) : cmd A := fun h => (h, Ok a).

Fixpoint mapC {X Y} (f : X -> cmd Y) (l : list X) : cmd (list Y) :=
  match l with
  | [] => ret []
  | x :: l' => y ← f x; ys ← mapC f l'; ret (y :: ys)
  end.
Fixpoint foldC {S X} (f : S -> X -> cmd S) (s : S) (l : list X) : cmd S :=
  match l with [] => ret s | x :: l' => s' ← f s x; foldC f s' l' end.

(** Reading. *)
Definition read_arr (h : heap) (a : harr) : option nda :=
  b ← h_bufs h !! a_buf a;
  vs ← mapM (b.2 !!.) (data (a_pos a));
  Some (Nda b.1 (Arr (shape (a_pos a)) vs)).
Definition read_label (h : heap) (o : nat) : option (list (list lab)) :=
  is ← h_outers h !! o;
  mapM (h_lists h !!.) is.
Definition read_larry (h : heap) (p : nat) : option larry :=
  ob ← h_objs h !! p;
  x ← read_arr h (o_x ob);
  label ← read_label h (o_label ob);
  Some (Larry x label).
(** Addresses that do not exist do not occur: see [HeapFacts]. *)
Definition look {A} (f : heap -> option A) : cmd A := fun h => (h, of_opt RuntimeError (f h)).
Definition ld_x (p : nat) : cmd harr := look (fun h => o_x <$> h_objs h !! p).
Definition ld_label (p : nat) : cmd nat := look (fun h => o_label <$> h_objs h !! p).
Definition load (a : harr) : cmd nda := look (fun h => read_arr h a).
Definition get_list (i : nat) : cmd (list lab) := look (fun h => h_lists h !! i).
Definition get_outer (o : nat) : cmd (list nat) := look (fun h => h_outers h !! o).
Definition value (p : nat) : cmd larry := look (fun h => read_larry h p).

(** Making new objects. *)
Definition alloc (x : nda) : cmd harr := fun h =>
  (Heap (h_bufs h ++ [(nd_dtype x, data (nd_arr x))]) (h_lists h) (h_outers h) (h_objs h),
   Ok (HArr (length (h_bufs h)) (Arr (nd_shape x) (seq 0 (length (data (nd_arr x))))))).
Definition new_list (l : list lab) : cmd nat := fun h =>
  (Heap (h_bufs h) (h_lists h ++ [l]) (h_outers h) (h_objs h), Ok (length (h_lists h))).
Definition new_outer (is : list nat) : cmd nat := fun h =>
  (Heap (h_bufs h) (h_lists h) (h_outers h ++ [is]) (h_objs h), Ok (length (h_outers h))).
Definition new_obj (a : harr) (o : nat) : cmd nat := fun h =>
  (Heap (h_bufs h) (h_lists h) (h_outers h) (h_objs h ++ [HObj a o]), Ok (length (h_objs h))).

(** Changing objects. *)
Definition set_obj (p : nat) (f : hobj -> hobj) : cmd unit := fun h =>
  match h_objs h !! p with
  | Some ob => (Heap (h_bufs h) (h_lists h) (h_outers h) (<[p := f ob]> (h_objs h)), Ok ())
  | None => (h, Err RuntimeError)
  end.
Definition set_x (p : nat) (a : harr) : cmd unit := set_obj p (fun ob => HObj a (o_label ob)).
Definition set_label (p : nat) (o : nat) : cmd unit := set_obj p (fun ob => HObj (o_x ob) o).
Definition set_outer (o : nat) (is : list nat) : cmd unit := fun h =>
  match h_outers h !! o with
  | Some _ => (Heap (h_bufs h) (h_lists h) (<[o := is]> (h_outers h)) (h_objs h), Ok ())
  | None => (h, Err RuntimeError)
  end.
Definition set_list (i : nat) (l : list lab) : cmd unit := fun h =>
  match h_lists h !! i with
  | Some _ => (Heap (h_bufs h) (<[i := l]> (h_lists h)) (h_outers h) (h_objs h), Ok ())
  | None => (h, Err RuntimeError)
  end.
(** Write the elements of [x] to the places of the elements of [a]. *)
Definition put_at (ps : list nat) (vs : list val) (d : list val) : list val :=
  fold_left (fun d pv => <[pv.1 := pv.2]> d) (zip ps vs) d.
Definition write (a : harr) (x : nda) : cmd unit := fun h =>
  match h_bufs h !! a_buf a with
  | Some (dt, d) =>
      if decide (dt = nd_dtype x /\ length (data (a_pos a)) = length (data (nd_arr x))) then
        (Heap (<[a_buf a := (dt, put_at (data (a_pos a)) (data (nd_arr x)) d)]> (h_bufs h))
           (h_lists h) (h_outers h) (h_objs h), Ok ())
      else (h, Err RuntimeError)
  | None => (h, Err RuntimeError)
  end.
(** A view of a view; the selection is done on the positions. *)
Definition view (f : arr nat -> res (arr nat)) (a : harr) : cmd harr :=
  q ← lift (f (a_pos a)); ret (HArr (a_buf a) q).

(** [label[ax] = l] and [label.pop(ax)]. *)
Definition set_axis (o ax i : nat) : cmd unit := is ← get_outer o; set_outer o (<[ax := i]> is).
Definition pop_axis (o ax : nat) : cmd unit := is ← get_outer o; set_outer o (remove_at ax is).

(** * Copies *)

(** [y.copylabel()]: la/deflarry.py:4954-4966. *)
Definition copylabel (p : nat) : cmd nat :=
  o ← ld_label p;
  is ← get_outer o;
  js ← mapC (fun i => l ← get_list i; new_list l) is;
  new_outer js.
(** [y.copy()]: la/deflarry.py:4934-4952. *)
Definition h_copy (p : nat) : cmd nat :=
  o ← copylabel p;
  a ← ld_x p;
  x ← load a;
  b ← alloc x;
  new_obj b o.
(** [larry(x, label)] from a new array and new lists. *)
Definition h_new (z : larry) : cmd nat :=
  a ← alloc (lx z);
  is ← mapC new_list (llabel z);
  o ← new_outer is;
  new_obj a o.

(** What a call returns. *)
Inductive hval := HLarry (p : nat) | HNd (a : harr) | HScalar (v : val).
Definition one (m : cmd nat) : cmd (list hval) := q ← m; ret [HLarry q].

(** * Calls that compute a new array and copy the labels *)

(** [x = f(self.x); label = self.copylabel(); return larry(x, label)]: log to
    power (la/deflarry.py:142-274), [__neg__] (464-468), isnan, isfinite, isinf,
    invert (512-637), the operators with scalars and arrays (684-687, 729-732,
    ...), the moving window methods (2703-3058), demean, demedian, zscore,
    ranking, quantile (3066-3235), ismissing (3927-3929), push (3996-3998). *)
Definition h_map (f : larry -> res larry) (p : nat) : cmd nat :=
  y ← value p;
  z ← lift (f y);
  a ← alloc (lx z);
  o ← copylabel p;
  new_obj a o.
(** The comparisons with scalars and arrays: la/deflarry.py:1685-1706. *)
Definition h_map_out (f : larry -> res out) (p : nat) : cmd (list hval) :=
  y ← value p;
  r ← lift (f y);
  match r with
  | OVal v => ret [HScalar v]
  | OLar z =>
      a ← alloc (lx z);
      o ← copylabel p;
      one (new_obj a o)
  end.
(** [__reduce]: la/deflarry.py:1461-1492. *)
Definition h_reduce (f : larry -> res out) (p : nat) (axis : option Z) : cmd (list hval) :=
  y ← value p;
  r ← lift (f y);
  match r, axis with
  | OLar z, Some a =>
      ax ← lift (of_opt IndexError (py_index (lndim y) a));
      a ← alloc (lx z);
      o ← copylabel p;
      _ ← pop_axis o ax;
      one (new_obj a o)
  | OLar _, None => lift (Err RuntimeError)
  | OVal v, _ => ret [HScalar v]
  end.

(** * Calls that copy and then change the copy *)

(** [y = self.copy(); y.x.clip(lo, hi, y.x)] (la/deflarry.py:460-462),
    [np.absolute(y.x, y.x)] (496-498), [bn.replace(y.x, ...)] (4077-4079). *)
Definition h_copy_write (f : larry -> res larry) (p : nat) : cmd nat :=
  y ← value p;
  z ← lift (f y);
  q ← h_copy p;
  a ← ld_x q;
  _ ← write a (lx z);
  ret q.
(** [y = self.copy(); y.x = f(y.x)]: movingsum_forward (la/deflarry.py:3060-3064)
    and the group methods (3239-3270). *)
Definition h_copy_assign (f : larry -> res larry) (p : nat) : cmd nat :=
  y ← value p;
  z ← lift (f y);
  q ← h_copy p;
  b ← alloc (lx z);
  _ ← set_x q b;
  ret q.
(** [cumsum], [cumprod]: la/deflarry.py:348-356, 414-422. *)
Definition h_cum (op : cum_op) (p : nat) (axis : option Z) : cmd nat :=
  match axis with
  | None => lift (Err ValueError)
  | Some axis =>
      q ← h_copy p;
      a ← ld_x q;
      x ← load a;
      idx ← lift (test_mask is_nan x);
      x1 ← lift (putmask_scalar x idx (VInt (match op with SpecNum.CSum => 0 | SpecNum.CProd => 1 end)));
      _ ← write a x1;
      x2 ← lift (np_cum op x1 axis);
      b ← alloc x2;
      _ ← set_x q b;
      if any_true idx then
        x3 ← lift (putmask_scalar x2 idx (VFloat NaN));
        _ ← write b x3;
        ret q
      else ret q
  end.
(** [prod]: la/deflarry.py:1157-1167. *)
Definition h_prod (p : nat) (axis : option Z) : cmd (list hval) :=
  q ← h_copy p;
  a ← ld_x q;
  x ← load a;
  idx ← lift (test_mask is_nan x);
  x1 ← lift (putmask_scalar x idx (VInt 1));
  _ ← write a x1;
  r ← h_reduce (fun y => larry_reduce RProd y axis) q axis;
  match axis with
  | None => ret (if forallb id (data idx) then [HScalar (VFloat NaN)] else r)
  | Some z =>
      ax ← lift (of_opt ValueError (py_index (nd_ndim x) z));
      m ← lift (of_opt ValueError (reduce (forallb id) idx ax));
      match shape m, r with
      | [], _ => ret (if forallb id (data m) then [HScalar (VFloat NaN)] else r)
      | _, [HLarry s] =>
          b ← ld_x s;
          x2 ← load b;
          x3 ← lift (putmask_scalar x2 m (VFloat NaN));
          _ ← write b x3;
          ret r
      | _, _ => lift (Err TypeError)
      end
  end.

(** * Calls that change labels *)

(** [maplabel]: la/deflarry.py:2692-2701. *)
Definition h_maplabel_at (q : nat) (func : lab -> lab) (axis : Z) : cmd unit :=
  o ← ld_label q;
  is ← get_outer o;
  ax ← lift (of_opt IndexError (py_index (length is) axis));
  i ← lift (of_opt IndexError (is !! ax));
  l ← get_list i;
  j ← new_list (map_axis func l);
  set_axis o ax j.
Definition h_maplabel (p : nat) (func : lab -> lab) (axis : option Z) (copy : bool) : cmd nat :=
  q ← (if copy then h_copy p else ret p);
  y ← value q;
  _ ← foldC (fun _ a => h_maplabel_at q func a) () (axes_of y axis);
  ret q.
(** [flipaxis]: la/deflarry.py:3762-3776. *)
Definition h_flip_at (q : nat) (axis : Z) : cmd unit :=
  o ← ld_label q;
  is ← get_outer o;
  ax ← lift (of_opt IndexError (py_index (length is) axis));
  i ← lift (of_opt IndexError (is !! ax));
  l ← get_list i;
  l' ← lift (py_slice flip_slice l);
  j ← new_list l';
  _ ← set_axis o ax j;
  a ← ld_x q;
  b ← view (fun x => slice_axis x flip_slice ax) a;
  set_x q b.
Definition h_flipaxis (p : nat) (axis : option Z) (copy : bool) : cmd nat :=
  q ← (if copy then h_copy p else ret p);
  y ← value q;
  _ ← foldC (fun _ a => h_flip_at q a) () (axes_of y axis);
  ret q.
(** [take]: la/deflarry.py:1952-1959. *)
Definition h_take (p : nat) (indices : list Z) (axis : Z) : cmd nat :=
  y ← value p;
  z ← lift (larry_take y indices axis);
  ax ← lift (py_axis y axis);
  l ← lift (axis_label z ax);
  o ← copylabel p;
  i ← new_list l;
  _ ← set_axis o ax i;
  a ← alloc (lx z);
  new_obj a o.
(** [keep_label]: la/deflarry.py:2448, 2474-2482. *)
Definition h_keep_label (p : nat) (op : label_op) (axis : option Z) : cmd nat :=
  y ← value p;
  z ← lift (keep_label y op axis);
  axis ← lift (of_opt ValueError axis);
  ax ← lift (py_axis y axis);
  l ← lift (axis_label y ax);
  idx ← lift (positions (label_test op) l);
  match idx with
  | [] => h_new z
  | _ =>
      q ← h_copy p;
      l' ← lift (axis_label z ax);
      i ← new_list l';
      o ← ld_label q;
      _ ← set_axis o ax i;
      a ← alloc (lx z);
      _ ← set_x q a;
      ret q
  end.
(** [lag]: la/deflarry.py:3593-3611. *)
Definition h_lag_by (p : nat) (axis : Z) (sl sx : slice) : cmd nat :=
  q ← h_copy p;
  o ← ld_label q;
  is ← get_outer o;
  ax ← lift (of_opt IndexError (py_index (length is) axis));
  i ← lift (of_opt IndexError (is !! ax));
  l ← get_list i;
  l' ← lift (py_slice sl l);
  j ← new_list l';
  _ ← set_axis o ax j;
  a ← ld_x q;
  b ← view (fun x => slice_axis x sx ax) a;
  _ ← set_x q b;
  ret q.
Definition h_lag (p : nat) (nlag : Z) (axis : option Z) : cmd nat :=
  axis ← lift (of_opt IndexError axis);
  if decide (0 < nlag)%Z then
    h_lag_by p axis (Slice (Some nlag) None None) (Slice (Some 0%Z) (Some (- nlag)%Z) None)
  else if decide (nlag < 0)%Z then
    h_lag_by p axis (Slice None (Some nlag) None) (Slice (Some (- nlag)%Z) None None)
  else h_copy p.
(** [T]: la/deflarry.py:4227-4230. *)
Definition h_T (p : nat) : cmd nat :=
  q ← h_copy p;
  a ← ld_x q;
  b ← view (fun x => of_opt ValueError (transpose x)) a;
  _ ← set_x q b;
  o ← ld_label q;
  is ← get_outer o;
  o' ← new_outer (reverse is);
  _ ← set_label q o';
  ret q.
(** [swapaxes]: la/deflarry.py:4281-4284. *)
Definition h_swapaxes (p : nat) (axis1 axis2 : Z) : cmd nat :=
  q ← h_copy p;
  o ← ld_label q;
  is ← get_outer o;
  i ← lift (of_opt IndexError (py_index (length is) axis1));
  j ← lift (of_opt IndexError (py_index (length is) axis2));
  is' ← lift (of_opt IndexError (swap_at i j is));
  _ ← set_outer o is';
  a ← ld_x q;
  b ← view (fun x => of_opt ValueError (np_swapaxes x i j)) a;
  _ ← set_x q b;
  ret q.
(** [insertaxis]: la/deflarry.py:4447-4459; [expand_dims] is a view of the
    copy. *)
Definition h_insertaxis (p : nat) (axis : option Z) (label : lab) : cmd nat :=
  y ← value p;
  z ← lift (insertaxis y axis label);
  axis ← lift (of_opt ValueError axis);
  a ← ld_x p;
  x ← load a;
  a ← alloc x;
  a ← view (fun x => Ok (expand_dims x axis)) a;
  o ← copylabel p;
  is ← get_outer o;
  let n := length is in
  let ax := if decide (axis = -1)%Z then Z.of_nat n
            else if decide (axis < -1)%Z then (axis + 1)%Z else axis in
  i ← new_list [label];
  _ ← set_outer o (insert_at (clamp_pos n ax) i is);
  new_obj a o.
(** Common part of [vacuum] (la/deflarry.py:4025-4060) and [cut_missing]
    (3952-3989): an axis that is not cut keeps the list of the copy. *)
Definition h_cut (test : list bool -> bool) (cut : nat -> bool) (p : nat) : cmd nat :=
  y ← value p;
  z ← lift (cut_slices test cut y);
  q ← h_copy p;
  o ← ld_label q;
  is ← get_outer o;
  js ← mapC (fun r : nat * list lab => if cut r.1 then new_list r.2 else lift (of_opt IndexError (is !! r.1)))
            (zip (seq 0 (length (llabel z))) (llabel z));
  o' ← new_outer js;
  b ← alloc (lx z);
  _ ← set_x q b;
  _ ← set_label q o';
  ret q.
Definition h_vacuum (p : nat) (axis : axes_arg) : cmd nat :=
  h_cut (existsb id)
    (fun ax => match axis with
               | AxNone => true
               | AxInt a => negb (bool_decide (Z.of_nat ax = a))
               | AxTuple l => negb (bool_decide (Z.of_nat ax ∈ l))
               end) p.
Definition h_cut_missing (p : nat) (fraction : num) (axis : option Z) : cmd nat :=
  y ← value p;
  keep ← lift (match axis with
               | None => Ok (seq 0 (lndim y))
               | Some a => k ← of_opt IndexError (py_index (lndim y) a); Ok [k]
               end);
  q ← h_cut (enough fraction) (fun ax => negb (bool_decide (ax ∈ keep))) p;
  z ← value q;
  if decide (lsize z = 0) then h_new empty_larry else ret q.

(** [keep_x]: la/deflarry.py:2524-2534; the copy is written to and, if asked
    for, replaced by what [vacuum] makes of it. *)
Definition h_keep_x (p : nat) (op : option cmp_op) (v : val) (vac : bool) : cmd nat :=
  y ← value p;
  if vac && negb (bool_decide (lndim y = 2)) then lift (Err ValueError)
  else
    q ← h_copy_write (fun y => keep_x y op v false) p;
    if vac then h_vacuum q AxNone else ret q.

(** * Alignment *)

(** [morph]: la/deflarry.py:3331-3361. *)
Definition h_morph (p : nat) (label : list lab) (axis : Z) : cmd nat :=
  y ← value p;
  z ← lift (morph y label axis);
  ax ← lift (py_axis y axis);
  old ← lift (axis_label y ax);
  if decide (old = label) then h_copy p
  else
    a ← alloc (lx z);
    o ← copylabel p;
    i ← new_list label;
    _ ← set_axis o ax i;
    new_obj a o.
(** [morph_like]: la/deflarry.py:3412-3420. *)
Definition h_morph_like (p r : nat) : cmd nat :=
  y ← value p;
  lar ← value r;
  if decide (lndim y <> lndim lar) then lift (Err IndexError)
  else foldC (fun q i => l ← lift (getlabel lar (Z.of_nat i)); h_morph q l (Z.of_nat i)) p (seq 0 (lndim y)).
(** [sortaxis]: la/deflarry.py:3688-3700. *)
Definition h_sortaxis_step (reverse : bool) (self : larry) (q : nat) (axis : Z) : cmd nat :=
  n ← lift (of_opt IndexError (py_get (lshape self) axis));
  if decide (1 < n) then
    ax ← lift (py_axis self axis);
    l ← lift (axis_label self ax);
    index ← lift (if reverse then py_sorted_rev l else py_sorted l);
    h_morph q index axis
  else h_copy q.
Definition h_sortaxis (p : nat) (axis : option Z) (reverse : bool) : cmd nat :=
  y ← value p;
  foldC (h_sortaxis_step reverse y) p (axes_of y axis).
(** [merge]: la/deflarry.py:3463-3503.  [lar1] starts as [self]. *)
Definition h_merge_step (st : nat * nat) (ax : nat) : cmd (nat * nat) :=
  y1 ← value st.1;
  y2 ← value st.2;
  l1 ← lift (axis_label y1 ax);
  l2 ← lift (axis_label y2 ax);
  if decide (l1 = l2) then ret st
  else
    mergelabel ← lift (sorted_set (l1 ++ l2));
    p1 ← h_morph st.1 mergelabel (Z.of_nat ax);
    p2 ← h_morph st.2 mergelabel (Z.of_nat ax);
    ret (p1, p2).
Definition h_merge (p1 p2 : nat) (update : bool) : cmd nat :=
  self ← value p1;
  other ← value p2;
  if decide (lndim self <> lndim other) then lift (Err IndexError)
  else
    st ← foldC h_merge_step (p1, p2) (seq 0 (lndim self));
    lar1 ← value st.1;
    lar2 ← value st.2;
    let dt1 := ldtype self in
    let dt2 := ldtype other in
    let mask1 := merge_mask (lx lar1) in
    if decide (dt1 = dt2 \/ numeric dt1 = true /\ numeric dt2 = true) then
      let mask2 := merge_mask (lx lar2) in
      if negb update && any_true (mask_and mask1 mask2) then lift (Err ValueError)
      else if any_true mask2 then
        x ← lift (putmask_arr (lx lar1) mask2 (lx lar2));
        a ← ld_x st.1;
        _ ← write a x;
        ret st.1
      else ret st.1
    else if decide (dt1 = DStr /\ numeric dt2 = true) then
      lift (if negb update && any_true mask1 then Err ValueError else Err AttributeError)
    else lift (Err TypeError).

(** The operators on two larrys: la/deflarry.py:675-683, ...; [__align] makes
    new label lists (1053-1064). *)
Definition h_binary (f : nda -> nda -> res nda) (p1 p2 : nat) : cmd nat :=
  self ← value p1;
  other ← value p2;
  if decide (llabel self = llabel other) then
    x ← lift (f (lx self) (lx other));
    a ← alloc x;
    o ← copylabel p1;
    new_obj a o
  else
    z ← lift (larry_binary f self (OpLarry other));
    h_new z.
(** Comparisons of two larrys: la/deflarry.py:1707-1723. *)
Definition h_compare (op : cmp_op) (p1 p2 : nat) : cmd (list hval) :=
  self ← value p1;
  other ← value p2;
  r ← lift (larry_compare op self (OpLarry other));
  match r with OLar z => one (h_new z) | OVal v => ret [HScalar v] end.
(** [__rsub__]: la/deflarry.py:735-737. *)
Definition h_rsub (other : operand) (p : nat) : cmd nat :=
  q ← h_map (fun y => larry_arith ASub y other) p;
  h_map larry_neg q.

(** [align_raw]: la/flarry.py:269-377.  [x1] is [lar1.x] until elements are
    taken from it. *)
Record hal := Hal { hal_x1 : harr; hal_x2 : harr; hal_st : align_st }.
Definition took1 (j : join_type) : bool := match j with JInner | JOuter | JRight => true | _ => false end.
Definition took2 (j : join_type) : bool := match j with JInner | JOuter | JLeft => true | _ => false end.
Definition h_align_step (lar1 lar2 : larry) (cast : bool) (js : list join_type) (s : hal) (ax : nat) : cmd hal :=
  st ← lift (align_step lar1 lar2 cast js (hal_st s) ax);
  joinax ← lift (of_opt IndexError (js !! ax));
  let moved := bool_decide (llabel lar1 !! ax <> llabel lar2 !! ax) in
  x1 ← (if moved && took1 joinax then alloc (al_x1 st) else ret (hal_x1 s));
  x2 ← (if moved && took2 joinax then alloc (al_x2 st) else ret (hal_x2 s));
  ret (Hal x1 x2 st).
Definition h_align_raw (p1 p2 : nat) (j : join_arg) (cast : bool) : cmd hal :=
  lar1 ← value p1;
  lar2 ← value p2;
  let nd := lndim lar2 in
  if decide (lndim lar1 <> nd) then lift (Err ValueError)
  else
    js ← lift (match j with
               | JOne j => Ok (replicate nd j)
               | JList js => if decide (length js <> nd) then Err ValueError else Ok js
               | JOther => Err TypeError
               end);
    x1 ← ld_x p1;
    x2 ← ld_x p2;
    foldC (h_align_step lar1 lar2 cast js)
      (Hal x1 x2 (AlignSt (lx lar1) None true (lx lar2) None true [])) (seq 0 nd).
(** [align]: la/flarry.py:104-130. *)
Definition h_own (a : harr) (isview : bool) (label : list (list lab)) : cmd nat :=
  a ← (if isview then x ← load a; alloc x else ret a);
  is ← mapC new_list label;
  o ← new_outer is;
  new_obj a o.
Definition h_align (p1 p2 : nat) (j : join_arg) (cast : bool) : cmd (list hval) :=
  lar1 ← value p1;
  lar2 ← value p2;
  s ← h_align_raw p1 p2 j cast;
  label1 ← lift (own_label lar1 (al_label (hal_st s)));
  label2 ← lift (own_label lar2 (al_label (hal_st s)));
  q1 ← h_own (hal_x1 s) (al_view1 (hal_st s)) label1;
  q2 ← h_own (hal_x2 s) (al_view2 (hal_st s)) label2;
  ret [HLarry q1; HLarry q2].
(** [align_axis]: la/flarry.py:486-520. *)
Definition h_align_axis (ps : list nat) (axis : list Z) (j : join_type) : cmd (list hval) :=
  lars ← mapC value ps;
  _ ← lift (mapR (fun p =>
        a ← of_opt IndexError (axis !! p.1);
        if decide (Z.of_nat (lndim p.2) <= a \/ a < - Z.of_nat (lndim p.2))%Z
        then Err ValueError else Ok ()) (zip (seq 0 (length lars)) lars));
  if decide (j = JSkip \/ j = JBad) then lift (Err ValueError)
  else
    label ← lift (align_axis_label lars axis j);
    mapC (fun r => a ← lift (of_opt IndexError (axis !! r.1)); q ← h_morph r.2 label a; ret (HLarry q))
      (zip (seq 0 (length ps)) ps).
(** [binaryop]: la/flarry.py:765-788.  [np.putmask] writes to [x1] and [x2],
    which may be [lar1.x] and [lar2.x]. *)
Definition h_put_scalar (a : harr) (mask : arr bool) (v : val) : cmd unit :=
  x ← load a;
  x' ← lift (put_scalar x mask v);
  write a x'.
Definition h_binaryop (func : nda -> nda -> res nda) (p1 p2 : nat) (j : join_arg) (cast : bool)
    (missone misstwo : option val) : cmd nat :=
  s ← h_align_raw p1 p2 j cast;
  x1 ← load (hal_x1 s);
  x2 ← load (hal_x2 s);
  let miss1 := ismissing x1 in
  let miss2 := ismissing x2 in
  if decide ((missone <> None \/ misstwo <> None) /\ nd_shape x1 <> nd_shape x2) then lift (Err NotImplementedError) else
  _ ← match missone with
      | None => ret ()
      | Some v =>
          _ ← h_put_scalar (hal_x1 s) (azip (fun a b => a && negb b) miss1 miss2) v;
          h_put_scalar (hal_x2 s) (azip (fun a b => a && negb b) miss2 miss1) v
      end;
  _ ← match misstwo with
      | None => ret ()
      | Some v =>
          let both := azip andb miss1 miss2 in
          _ ← h_put_scalar (hal_x1 s) both v;
          h_put_scalar (hal_x2 s) both v
      end;
  x1 ← load (hal_x1 s);
  x2 ← load (hal_x2 s);
  x ← lift (func x1 x2);
  label ← lift (of_opt NotImplementedError (mapM (fun o => o) (al_label (hal_st s))));
  h_new (Larry x label).

(** * Views *)

(** [__getitem__]: la/deflarry.py:1754-1887.  A numpy index of integers and
    slices gives a view; slicing a Python list makes a new list, but the lists
    of the other axes are passed on. *)
Definition h_getitem (p : nat) (ix : subscript) : cmd (list hval) :=
  y ← value p;
  g ← lift (larry_getitem y ix);
  a ← ld_x p;
  o ← ld_label p;
  is ← get_outer o;
  match g with
  | GVal v => ret [HScalar v]
  | GArr _ => b ← view (fun x => np_getitem x (index_items ix)) a; ret [HNd b]
  | GLar z =>
      match ix with
      | XInt _ =>
          b ← view (fun x => np_getitem x (index_items ix)) a;
          o' ← new_outer (tail is);
          one (new_obj b o')
      | XSlice _ =>
          l ← lift (axis_label z 0);
          i ← new_list l;
          b ← view (fun x => np_getitem x (index_items ix)) a;
          o' ← new_outer (<[0 := i]> is);
          one (new_obj b o')
      | XList _ =>
          l ← lift (axis_label z 0);
          i ← new_list l;
          b ← alloc (lx z);
          o' ← new_outer (<[0 := i]> is);
          one (new_obj b o')
      | XBools _ | XLarry _ =>
          l ← lift (axis_label z 0);
          o' ← copylabel p;
          i ← new_list l;
          _ ← set_axis o' 0 i;
          b ← alloc (lx z);
          one (new_obj b o')
      | XTuple items =>
          js ← mapC (fun ax =>
                 sel ← lift (axis_sel y items ax);
                 match sel, items !! ax with
                 | None, _ => ret None
                 | Some l, Some _ => i ← new_list l; ret (Some i)
                 | Some _, None => i ← lift (of_opt IndexError (is !! ax)); ret (Some i)
                 end) (seq 0 (lndim y));
          b ← (if existsb b_list items then alloc (lx z)
               else view (fun x => np_getitem x (index_items ix)) a);
          o' ← new_outer (somes js);
          one (new_obj b o')
      end
  end.
(** [pull]: la/deflarry.py:2359-2367. *)
Definition h_pull (p : nat) (name : lab) (axis : option Z) : cmd (list hval) :=
  y ← value p;
  r ← lift (pull y name axis);
  match r with
  | OVal v => ret [HScalar v]
  | OLar z =>
      axis ← lift (of_opt ValueError axis);
      ax ← lift (py_axis y axis);
      idx ← lift (labelindex y name (Some axis) true);
      o ← ld_label p;
      is ← get_outer o;
      a ← ld_x p;
      b ← view (fun x => of_opt IndexError (pick_axis x idx ax)) a;
      o' ← new_outer (remove_at ax is);
      one (new_obj b o')
  end.
(** [squeeze]: la/deflarry.py:3536-3541. *)
Definition h_squeeze (p : nat) : cmd nat :=
  y ← value p;
  o ← ld_label p;
  is ← get_outer o;
  a ← ld_x p;
  b ← view (fun x => Ok (np_squeeze x)) a;
  o' ← new_outer ((filter (fun r : nat * nat => r.1 <> 1) (zip (lshape y) is)).*2);
  new_obj b o'.
(** [lix]: la/deflarry.py:5017-5074.  An empty larry is returned as it is
    (5021-5022).  [np.ix_] makes an index of lists, hence a new array. *)
Definition h_lix_get (p : nat) (ix : lix_index) : cmd (list hval) :=
  y ← value p;
  if decide (lshape y = [0]) then ret [HLarry p]
  else if decide (0 ∈ lshape y) then lift (Err ValueError)
  else
    match ix with
    | LxLabels ls =>
        l ← lift (axis_label y 0);
        ps ← lift (labels2indices l ls);
        match ps with
        | [i] => h_getitem p (XInt (Z.of_nat i))
        | _ => h_getitem p (XList (Z.of_nat <$> ps))
        end
    | LxSlice s => s ← lift (slicemaker y 0 s); h_getitem p (XSlice s)
    | LxInt z => h_getitem p (XInt z)
    | LxTuple _ =>
        g ← lift (lix_get y ix);
        match g with
        | GLar z => one (h_new z)
        | GVal v => ret [HScalar v]
        | GArr x => a ← alloc x; ret [HNd a]
        end
    end.

(** * Calls that work in place *)

(** Writing to [self.x]: set (la/deflarry.py:2172), fill (2394), [__setitem__]
    (2109, 2121, 2125), lix (5131, 5133), shuffle (3819-3823 with
    la/farray/misc.py:182).  Simplification: nothing is written if the call
    raises; the value assigned does not overlap [self]. *)
Definition h_inplace (f : larry -> res larry) (p : nat) : cmd (list hval) :=
  y ← value p;
  z ← lift (f y);
  a ← ld_x p;
  _ ← write a (lx z);
  ret [].
(** [shufflelabel]: la/deflarry.py:3862-3866; the lists themselves change. *)
Definition h_shufflelabel_at (d : nat -> nat -> nat) (p : nat) (ax : nat) : cmd unit :=
  o ← ld_label p;
  is ← get_outer o;
  i ← lift (of_opt IndexError (is !! ax));
  l ← get_list i;
  l' ← lift (np_shuffle_list (d ax) l);
  set_list i l'.
Definition h_shufflelabel (d : nat -> nat -> nat) (p : nat) (axis : option Z) : cmd (list hval) :=
  y ← value p;
  axes ← lift (match axis with
               | None => Ok (seq 0 (lndim y))
               | Some a => ax ← py_axis y a; Ok [ax]
               end);
  _ ← foldC (fun _ ax => h_shufflelabel_at d p ax) () axes;
  ret [].

(** * All calls *)

(** Calls that make all of their result anew: the constructors, flatten
    (la/deflarry.py:4332-4334), unflatten (4395-4397), stack (la/flarry.py:
    1395-1405), panel (1466-1469), cov (1500-1502), sortby (1750-1765). *)
Definition h_make (r : res larry) : cmd nat := z ← lift r; h_new z.
Definition h_fresh1 (f : larry -> res larry) (p : nat) : cmd nat := y ← value p; h_make (f y).

Definition hexec (ps : list nat) (c : call) : cmd (list hval) :=
  let arg i := lift (of_opt IndexError (ps !! i)) in
  let with1 i (f : nat -> cmd (list hval)) := p ← arg i; f p in
  let with2 i j (f : nat -> nat -> cmd (list hval)) := p ← arg i; q ← arg j; f p q in
  match c with
  | CMake x label => one (h_make (make x label))
  | CCopy i => with1 i (fun p => one (h_copy p))
  | CSet i label v => with1 i (h_inplace (fun y => larry_set y label v))
  | CFill i v => with1 i (h_inplace (fun y => larry_fill y v))
  | CMaplabel i func axis => with1 i (fun p => one (h_maplabel p func axis true))
  | CTake i indices axis => with1 i (fun p => one (h_take p indices axis))
  | CKeepLabel i op axis => with1 i (fun p => one (h_keep_label p op axis))
  | CPull i name axis => with1 i (fun p => h_pull p name axis)
  | CLag i nlag axis => with1 i (fun p => one (h_lag p nlag axis))
  | CFlipaxis i axis => with1 i (fun p => one (h_flipaxis p axis true))
  | CT i => with1 i (fun p => one (h_T p))
  | CSwapaxes i a1 a2 => with1 i (fun p => one (h_swapaxes p a1 a2))
  | CSqueeze i => with1 i (fun p => one (h_squeeze p))
  | CInsertaxis i axis label => with1 i (fun p => one (h_insertaxis p axis label))
  | CMorph i label axis => with1 i (fun p => one (h_morph p label axis))
  | CMorphLike i j => with2 i j (fun p q => one (h_morph_like p q))
  | CSortaxis i axis reverse => with1 i (fun p => one (h_sortaxis p axis reverse))
  | CMerge i j update => with2 i j (fun p q => one (h_merge p q update))
  | CNanReplace i v => with1 i (fun p => one (h_copy_write (fun y => nan_replace y v) p))
  | CIsmissing i => with1 i (fun p => one (h_map (fun y => Ok (larry_ismissing y)) p))
  | CArith op i j => with2 i j (fun p q => one (h_binary (np_arith op) p q))
  | CArithArr op i a => with1 i (fun p => one (h_map (fun y => larry_arith op y (OpArr a)) p))
  | CArithScalar op i v => with1 i (fun p => one (h_map (fun y => larry_arith op y (OpScalar v)) p))
  | CRarithArr op i a =>
      with1 i (fun p => one (match op with
                             | ASub => h_rsub (OpArr a) p
                             | _ => h_map (fun y => larry_rarith op y (OpArr a)) p
                             end))
  | CRarithScalar op i v =>
      with1 i (fun p => one (match op with
                             | ASub => h_rsub (OpScalar v) p
                             | _ => h_map (fun y => larry_rarith op y (OpScalar v)) p
                             end))
  | CLogic op i j => with2 i j (fun p q => one (h_binary (np_logic op) p q))
  | CLogicArr op i a => with1 i (fun p => one (h_map (fun y => larry_logic op y (OpArr a)) p))
  | CLogicScalar op i v => with1 i (fun p => one (h_map (fun y => larry_logic op y (OpScalar v)) p))
  | CCompare op i j => with2 i j (h_compare op)
  | CCompareArr op i a => with1 i (h_map_out (fun y => larry_compare op y (OpArr a)))
  | CCompareScalar op i v => with1 i (h_map_out (fun y => larry_compare op y (OpScalar v)))
  | CNeg i => with1 i (fun p => one (h_map larry_neg p))
  | CAbs i => with1 i (fun p => one (h_copy_write larry_abs p))
  | CSign i => with1 i (fun p => one (h_map larry_sign p))
  | CIsnan i => with1 i (fun p => one (h_map larry_isnan p))
  | CIsfinite i => with1 i (fun p => one (h_map larry_isfinite p))
  | CIsinf i => with1 i (fun p => one (h_map larry_isinf p))
  | CInvert i => with1 i (fun p => one (h_map larry_invert p))
  | CCum op i axis => with1 i (fun p => one (h_cum op p axis))
  | CClip i lo hi => with1 i (fun p => one (h_copy_write (fun y => larry_clip y lo hi) p))
  | CReduce op i axis => with1 i (fun p => h_reduce (fun y => larry_reduce op y axis) p axis)
  | CStd sqrt i axis ddof => with1 i (fun p => h_reduce (fun y => larry_std sqrt y axis ddof) p axis)
  | Session.CProd i axis => with1 i (fun p => h_prod p axis)
  | CLastrank i axis => with1 i (fun p => h_reduce (fun y => larry_lastrank y axis) p (Some axis))
  | CVacuum i axis => with1 i (fun p => one (h_vacuum p axis))
  | CCutMissing i fraction axis => with1 i (fun p => one (h_cut_missing p fraction axis))
  | CPush i window axis => with1 i (fun p => one (h_map (fun y => larry_push y window axis) p))
  | CRanking ndtri i axis norm => with1 i (fun p => one (h_map (fun y => larry_ranking ndtri y axis norm) p))
  | CQuantile argsort i q axis => with1 i (fun p => one (h_map (fun y => larry_quantile argsort y q axis) p))
  | CDemean i axis => with1 i (fun p => one (h_map (fun y => larry_demean y axis) p))
  | CDemedian i axis => with1 i (fun p => one (h_map (fun y => larry_demedian y axis) p))
  | CZscore sqrt i axis => with1 i (fun p => one (h_map (fun y => larry_zscore sqrt y axis) p))
  | CMovingsumForward i window skip axis norm =>
      with1 i (fun p => one (h_copy_assign (fun y => larry_movingsum_forward y window skip axis norm) p))
  | CMoveFunc layout func i window axis method =>
      with1 i (fun p => one (h_map (fun y => larry_move_func layout func y window axis method []) p))
  | CMoveMedian layout i window axis method =>
      with1 i (fun p => one (h_map (fun y => larry_move_median layout y window axis method) p))
  | CMoveRanking layout i window axis method =>
      with1 i (fun p => one (h_map (fun y => larry_move_ranking layout y window axis method) p))
  | CGroupRanking i j axis =>
      with2 i j (fun p q => g ← value q; one (h_copy_assign (fun y => larry_group_ranking y (Some g) axis) p))
  | CGroupMean i j axis =>
      with2 i j (fun p q => g ← value q; one (h_copy_assign (fun y => larry_group_mean y (Some g) axis) p))
  | CGroupMedian i j axis =>
      with2 i j (fun p q => g ← value q; one (h_copy_assign (fun y => larry_group_median y (Some g) axis) p))
  | CGetitem i ix => with1 i (fun p => h_getitem p ix)
  | CSetitem i ix v => with1 i (h_inplace (fun y => larry_setitem y ix v))
  | CSetmask i j v => with2 i j (fun p q => m ← value q; h_inplace (fun y => larry_setmask y m v) p)
  | CLixGet i ix => with1 i (fun p => h_lix_get p ix)
  | CLixSet i ix v => with1 i (h_inplace (fun y => lix_set y ix v))
  | CShuffle d i axis => with1 i (h_inplace (fun y => larry_shuffle d y axis))
  | CShufflelabel d i axis => with1 i (fun p => h_shufflelabel d p axis)
  | CFlatten i order => with1 i (fun p => one (h_fresh1 (fun y => larry_flatten y order) p))
  | CUnflatten i => with1 i (fun p => one (h_fresh1 larry_unflatten p))
  | CFromlist d => one (h_make (larry_fromlist d))
  | CFromtuples d => one (h_make (larry_fromtuples d))
  | CFromdict d => one (h_make (larry_fromdict d))
  | CAlign i j join cast => with2 i j (fun p q => h_align p q join cast)
  | CAlignAxis is axis join => qs ← mapC arg is; h_align_axis qs axis join
  | CBinaryop op i j join cast m1 m2 => with2 i j (fun p q => one (h_binaryop (np_arith op) p q join cast m1 m2))
  | CStack mode names is => qs ← mapC arg is; ys ← mapC value qs; one (h_make (stack mode (zip names ys)))
  | CPanel i => with1 i (fun p => one (h_fresh1 panel p))
  | CCov i => with1 i (fun p => one (h_fresh1 larry_cov p))
  | CSortby argsort i element axis rev => with1 i (fun p => one (h_fresh1 (fun y => sortby argsort y element axis rev) p))
  | CLrange shape label start step dt => one (h_make (lrange shape label start step dt))
  | CEmpty f shape label => one (h_make (larry_empty f shape label))
  | CFillNew v f shape label => one (h_make (larry_fill_new v f shape label))
  | CRand f args label =>
      r ← lift (larry_rand f args label);
      match r with OLar z => one (h_new z) | OVal v => ret [HScalar v] end
  | CSplit i idx_train idx_test axis =>
      with1 i (fun p =>
        q1 ← h_take p (Z.of_nat <$> idx_train) axis;
        q2 ← h_take p (Z.of_nat <$> idx_test) axis;
        ret [HLarry q1; HLarry q2])
  | CPos i => with1 i (fun p => one (h_copy p))
  | CUfunc f i => with1 i (fun p => one (h_map (larry_ufunc f) p))
  | CPower pow i q => with1 i (fun p => one (h_map (fun y => larry_power pow y q) p))
  | CGeometricMean log exp i axis check => with1 i (fun p => h_reduce (fun y => larry_geometric_mean log exp y axis check) p axis)
  | CLastrankDecay exp i axis decay => with1 i (fun p => h_reduce (fun y => larry_lastrank_decay exp y axis decay) p (Some axis))
  | CKeepX i op v vac => with1 i (fun p => one (h_keep_x p op v vac))
  | CMove op i window axis => with1 i (fun p => one (h_map (fun y => larry_move op y window axis) p))
  | CAstype i dt => with1 i (fun p => one (h_map (fun y => larry_astype y dt) p))
  | CMakeDtype x label dt => one (h_make (make_dtype x label dt))
  | CFromcsv py3 float t delimiter skiprows => one (h_make (larry_fromcsv py3 float t delimiter skiprows))
  end.

(** Programs, as in Session.v: every larry returned is given the next number. *)
Definition larrys_of (rs : list hval) : list nat :=
  omap (M := list) (fun r => match r with HLarry q => Some q | _ => None end) rs.
Fixpoint hrun (ps : list nat) (prog : list call) : cmd (list nat) :=
  match prog with
  | [] => ret ps
  | c :: prog' => rs ← hexec ps c; hrun (ps ++ larrys_of rs) prog'
  end.
