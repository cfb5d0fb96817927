(** Flattening and the conversions to and from lists, tuples and dictionaries. *)
From Verif Require Export Larry Flabel SpecConvert.

(** [a.flatten(order)] of numpy: the elements in C order, or with the first
    index changing fastest. *)
Definition np_flatten {A} (a : arr A) (order : string) : res (list A) :=
  if decide (order = "C") then Ok (data a)
  else if decide (order = "F") then t ← of_opt ValueError (transpose a); Ok (data t)
  else Err TypeError.

(** [y.flatten(order)]: la/deflarry.py:4286-4334. *)
Definition larry_flatten (y : larry) (order : string) : res larry :=
  label ← flattenlabel (llabel y) order;
  x ← np_flatten (larr y) order;
  Ok (Larry (Nda (ldtype y) (Arr [length x] x)) [LTup <$> label]).

(** Python's [zip] of the given sequences: as many tuples as the shortest
    sequence has elements. *)
Fixpoint py_zip {A} (rows : list (list A)) : list (list A) :=
  match rows with
  | [] => []
  | r :: rest => match rest with [] => (fun x => [x]) <$> r | _ => zip_with cons r (py_zip rest) end
  end.

(** [fromlists(xs, labels)]: la/util/misc.py:161-212; [None] stands for the
    default label.  [x[index] = xs] stores the values one after the other; a
    single value is stored everywhere.  Simplification: strings are not read
    as numbers. *)
Definition fromlists (xs : list val) (labels : list (list lab)) : res (nda * option (list (list lab))) :=
  if decide (xs = [] /\ labels = []) then Ok (Nda DFloat (Arr [0] []), None)
  else
    r ← mapR list2index labels;
    let index := r.*1 in
    let label := r.*2 in
    let x := full (length <$> label) (VFloat NaN) in
    if decide (labels = []) then Err IndexError    (* indexing a 0d array *)
    else
      let places := py_zip index in
      vs ← mapR (store DFloat) xs;
      vs ← (if decide (length vs = length places) then Ok vs
            else match vs with [v] => Ok (replicate (length places) v) | _ => Err ValueError end);
      x ← foldM (fun a p => if decide (in_range (shape a) p.1) then Ok (arr_set a p.1 p.2) else Err IndexError) x (zip places vs);
      Ok (Nda DFloat x, Some label).
Definition larry_of (p : nda * option (list (list lab))) : res larry := make p.1 p.2.

(** [isscalar] of an element: la/util/scipy.py and la/util/misc.py:94-159. *)
Definition isscalar (v : val) : bool := match v with VFloat _ | VInt _ => true | _ => false end.
(** The elements of a label when it is unpacked. *)
Fixpoint chars (s : string) : list lab :=
  match s with EmptyString => [] | String c s' => LStr (String c EmptyString) :: chars s' end.
Definition lab_items (l : lab) : res (list lab) :=
  match l with LTup t => Ok t | LStr s => Ok (chars s) | _ => Err TypeError end.
(** [y.unflatten()]: la/deflarry.py:4336-4397. *)
Definition larry_unflatten (y : larry) : res larry :=
  if decide (lndim y <> 1) then Err ValueError
  else if decide (lshape y = [0]) then Ok empty_larry
  else
    v ← of_opt IndexError (data (larr y) !! 0);
    if isscalar v then
      l ← axis_label y 0;
      rows ← mapR lab_items l;
      p ← fromlists (data (larr y)) (py_zip rows);
      larry_of p
    else Err NotImplementedError.

(** [y.tolist()]: la/deflarry.py:4560-4580. *)
Definition larry_tolist (y : larry) : res (list val * list (list lab)) :=
  yf ← larry_flatten y "C";
  l ← axis_label yf 0;
  rows ← mapR lab_items l;
  Ok (data (larr yf), rows).
(** [larry.fromlist(data)]: la/deflarry.py:4582-4633.  [None] is the empty list. *)
Definition larry_fromlist (d : option (list val * list (list lab))) : res larry :=
  match d with
  | None => Ok empty_larry
  | Some (xs, labels) => p ← fromlists xs (py_zip labels); larry_of p
  end.

(** [y.totuples()]: la/deflarry.py:4463-4485.  A tuple is a pair of its labels
    and its last element. *)
Definition larry_totuples (y : larry) : res (list (list lab * val)) :=
  yf ← larry_flatten y "C";
  l ← axis_label yf 0;
  rows ← mapR lab_items l;
  Ok (zip (py_zip (py_zip rows)) (data (larr yf))).
(** [larry.fromtuples(data)]: la/deflarry.py:4487-4558.  Simplification: tuples
    of different lengths, which [zip] would truncate, are an error. *)
Definition same_length (rows : list (list lab)) : bool :=
  match rows with [] => true | r :: rest => forallb (fun r' => bool_decide (length r' = length r)) rest end.
Definition larry_fromtuples (d : list (list lab * val)) : res larry :=
  if decide (d = []) then Ok empty_larry
  else if same_length d.*1 then p ← fromlists d.*2 (py_zip d.*1); larry_of p
  else Err ValueError.

(** [y.todict()]: la/deflarry.py:4635-4654. *)
Definition larry_todict (y : larry) : res (pydict (list lab) val) :=
  p ← larry_tolist y;
  Ok (dict_zip p.2 p.1).
(** [larry.fromdict(data)]: la/deflarry.py:4656-4702; a dictionary lists its
    values and keys in the same order. *)
Definition larry_fromdict (d : pydict (list lab) val) : res larry :=
  larry_fromlist (Some (d.*2, d.*1)).
