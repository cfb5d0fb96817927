(** Shuffling and resampling: la/util/resample.py and the shuffle methods. *)
From Verif Require Export Larry SpecResample.

(** * numpy's shuffle *)

(** [x[i], x[j] = x[j], x[i]]. *)
Definition swap {A} (i j : nat) (l : list A) : option (list A) :=
  a ← l !! i;
  b ← l !! j;
  Some (<[j := a]> (<[i := b]> l)).
(** [np.random.shuffle(x)] (numpy 1.6-1.8): [i] runs from [len(x) - 1] down to
    1 and [x[i]] is exchanged with [x[j]] for a random [j] in 0..i; [d i] is
    that number. *)
Definition np_shuffle {A} (d : nat -> nat) (l : list A) : option (list A) :=
  foldr (fun i acc => l ← acc; swap i (d i) l) (Some l) (seq 1 (length l - 1)).

(** On a Python list whose first element has a length, numpy exchanges
    [x[j][:]] and [x[i][:]]. *)
Definition len_pos (l : lab) : bool :=
  match l with LStr s => negb (bool_decide (s = EmptyString)) | LTup t => negb (bool_decide (t = [])) | _ => false end.
Definition slice_copy (l : lab) : option lab := match l with LStr _ | LTup _ => Some l | _ => None end.
Definition swap_copy (i j : nat) (l : list lab) : res (list lab) :=
  a ← of_opt IndexError (l !! i);
  b ← of_opt IndexError (l !! j);
  b ← of_opt TypeError (slice_copy b);
  a ← of_opt TypeError (slice_copy a);
  Ok (<[j := a]> (<[i := b]> l)).
Definition np_shuffle_list (d : nat -> nat) (l : list lab) : res (list lab) :=
  match l with
  | a :: _ =>
      if len_pos a then foldr (fun i acc => l ← acc; swap_copy i (d i) l) (Ok l) (seq 1 (length l - 1))
      else of_opt IndexError (np_shuffle d l)
  | [] => Ok []
  end.

(** * The methods *)

(** [shuffle(x, axis)]: la/farray/misc.py:162-181.  The rows of
    [np.rollaxis(x, axis)] are the slices of [x] along the axis; they are
    given by their positions.  Simplification: 1d object arrays whose first
    element is a string are shuffled like others. *)
Definition shuffle_axis (d : nat -> nat) (y : larry) (ax : nat) : res larry :=
  n ← of_opt ValueError (axlen (larr y) ax);
  ps ← of_opt IndexError (np_shuffle d (seq 0 n));
  b ← of_opt IndexError (take_pos (larr y) ps ax);
  Ok (Larry (Nda (ldtype y) b) (llabel y)).
(** [y.shuffle(axis)]: la/deflarry.py:3780-3823; [d ax] are the random numbers
    used for axis [ax]. *)
Definition larry_shuffle (d : nat -> nat -> nat) (y : larry) (axis : option Z) : res larry :=
  match axis with
  | None => foldM (fun y ax => shuffle_axis (d ax) y ax) y (seq 0 (lndim y))
  | Some axis =>
      ax ← of_opt ValueError (py_index (lndim y) axis);
      shuffle_axis (d ax) y ax
  end.
(** [y.shufflelabel(axis)]: la/deflarry.py:3825-3868. *)
Definition shufflelabel_axis (d : nat -> nat) (y : larry) (ax : nat) : res larry :=
  l ← axis_label y ax;
  l ← np_shuffle_list d l;
  Ok (Larry (lx y) (<[ax := l]> (llabel y))).
Definition larry_shufflelabel (d : nat -> nat -> nat) (y : larry) (axis : option Z) : res larry :=
  match axis with
  | None => foldM (fun y ax => shufflelabel_axis (d ax) y ax) y (seq 0 (lndim y))
  | Some axis =>
      ax ← py_axis y axis;
      shufflelabel_axis (d ax) y ax
  end.

(** * The iterators *)

(** [cross_validation(n, kfold, shuffle)]: la/util/resample.py:6-62, as the
    list of the pairs it yields.  [shuffle] is the in-place shuffle. *)
Definition cross_validation (shuffle : list nat -> list nat) (n kfold : Z) : res (list (list nat * list nat)) :=
  if decide (n < 2)%Z then Err ValueError
  else if decide (kfold < 2)%Z then Err ValueError
  else if decide (kfold > n)%Z then Err ValueError
  else
    let n := Z.to_nat n in
    let kfold := Z.to_nat kfold in
    let index := shuffle (seq 0 n) in
    let nperk := n / kfold in
    let remainder := n - nperk * kfold in
    Ok (map (fun k =>
               let idx1 := nperk * k in
               let idx2 := idx1 + nperk in
               let idx2 := if decide (k = kfold - 1) then idx2 + remainder else idx2 in
               (take idx1 index ++ drop idx2 index, drop idx1 (take idx2 index)))
            (seq 0 kfold)).

(** [bootstrap(n, nboot, randint)]: la/util/resample.py:64-134.  [draw k] is
    the [k]-th result of [randint(0, n, n)].  The loop need not end, so it has
    fuel: [None] if it has not finished after [fuel] draws.  The test set is
    listed in ascending order. *)
Definition left_out (n : nat) (train : list nat) : list nat := filter (fun i => i ∉ train) (seq 0 n).
Fixpoint bootstrap_loop (draw : nat -> list nat) (n nboot k count fuel : nat) : option (list (list nat * list nat)) :=
  match fuel with
  | 0 => None
  | S fuel =>
      let idx_train := draw k in
      let idx_test := left_out n idx_train in
      let out := if decide (0 < length idx_test) then [(idx_train, idx_test)] else [] in
      let count := if decide (0 < length idx_test) then S count else count in
      if decide (nboot <= count) then Some out
      else rest ← bootstrap_loop draw n nboot (S k) count fuel; Some (out ++ rest)
  end.
Definition bootstrap (draw : nat -> list nat) (n nboot : Z) (fuel : nat) : res (option (list (list nat * list nat))) :=
  if decide (n < 2)%Z then Err ValueError
  else if decide (nboot < 1)%Z then Err ValueError
  else Ok (bootstrap_loop draw (Z.to_nat n) (Z.to_nat nboot) 0 0 fuel).

(** [split(data, idx_train, idx_test, axis)]: la/util/resample.py:136-219. *)
Definition split_data (y : larry) (idx_train idx_test : list nat) (axis : Z) : res (larry * larry) :=
  train ← larry_take y (Z.of_nat <$> idx_train) axis;
  test ← larry_take y (Z.of_nat <$> idx_test) axis;
  Ok (train, test).
