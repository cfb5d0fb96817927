(** Properties C06, C08, C09, C11, C13-C15, C28-C31: construction, element
    access, slice selection and axis movement (la/deflarry.py). *)
From Verif Require Import LarryErr.

(** Larrys used in the examples. *)
Definition vf (z : Z) : val := VFloat (num_of_Z z).
Definition ex1 : larry := Larry (Nda DFloat (Arr [3] [vf 10; vf 20; vf 30])) [[LStr "b"; LStr "a"; LStr "c"]].
Definition ex2 : larry :=
  Larry (Nda DInt (Arr [2; 3] (VInt <$> [1; 2; 3; 4; 5; 6]%Z)))
        [[LStr "x"; LStr "y"]; [LInt 7; LInt 9; LInt 5]].
Example ex1_valid : valid ex1.
Proof. solve_valid. Qed.
Example ex2_valid : valid ex2.
Proof. solve_valid. Qed.

(** C06: the constructor. *)
Theorem C06_make_iff : forall x label y,
  make x (Some label) = Ok y <->
  y = Larry x label /\ label <> [] /\ length <$> label = nd_shape x /\ Forall NoDup label.
Proof. exact make_some_ok. Qed.
Theorem C06_make_error : forall x label,
  ~ (label <> [] /\ length <$> label = nd_shape x /\ Forall NoDup label) ->
  make x (Some label) = Err ValueError.
Proof. exact make_some_err. Qed.
Theorem C06_make_valid : forall x label y,
  nda_wf x -> make x (Some label) = Ok y <-> y = Larry x label /\ valid (Larry x label).
Proof. exact make_some_valid. Qed.
Theorem C06_make_default_labels : forall x y,
  make x None = Ok y <->
  nd_ndim x <> 0 /\
  y = Larry x ((fun n => (fun i => LInt (Z.of_nat i)) <$> seq 0 n) <$> nd_shape x).
Proof. exact make_none_ok. Qed.
Theorem C06_make_default_error : forall x, nd_ndim x = 0 -> make x None = Err ValueError.
Proof. exact make_none_err. Qed.
Theorem C06_make_default_valid : forall x y, nda_wf x -> make x None = Ok y -> valid y.
Proof. exact make_none_valid. Qed.
Example C06_example :
  make (lx ex2) (Some (llabel ex2)) = Ok ex2 /\
  make (lx ex2) (Some [[LInt 0; LInt 0]; [LInt 7; LInt 9; LInt 5]]) = Err ValueError /\
  llabel <$> make (lx ex2) None = Ok [[LInt 0; LInt 1]; [LInt 0; LInt 1; LInt 2]].
Proof. vm_compute. done. Qed.

(** C08: maplabel. *)
Theorem C08_maplabel_all : forall y f y',
  valid y -> maplabel y f None = Ok y' ->
  lx y' = lx y /\ llabel y' = (fun axis : list lab => f <$> axis) <$> llabel y /\
  (valid y' <-> Forall (fun axis => forall a b, a ∈ axis -> b ∈ axis -> f a = f b -> a = b) (llabel y)) /\
  (valid y' -> forall ls, in_grid (llabel y) ls -> cell y' (f <$> ls) = cell y ls).
Proof. exact maplabel_all. Qed.
Theorem C08_maplabel_axis : forall y f axis y',
  valid y -> maplabel y f (Some axis) = Ok y' ->
  exists ax l, axis_is y axis ax /\ llabel y !! ax = Some l /\
  lx y' = lx y /\ llabel y' = <[ax := f <$> l]> (llabel y) /\
  (valid y' <-> forall a b, a ∈ l -> b ∈ l -> f a = f b -> a = b) /\
  (valid y' -> forall ls a, in_grid (llabel y) ls -> ls !! ax = Some a -> cell y' (<[ax := f a]> ls) = cell y ls).
Proof. setoid_rewrite <-py_axis_is. exact maplabel_axis. Qed.
Theorem C08_maplabel_succeeds : forall y f,
  (exists z, maplabel y f None = Ok z) /\
  (forall axis ax, axis_is y axis ax -> exists z, maplabel y f (Some axis) = Ok z) /\
  (forall axis, (forall ax, ~ axis_is y axis ax) -> maplabel y f (Some axis) = Err IndexError).
Proof. exact maplabel_total. Qed.
Example C08_example :
  llabel <$> maplabel ex2 (fun _ => LStr "q") (Some (-2)%Z) = Ok [[LStr "q"; LStr "q"]; [LInt 7; LInt 9; LInt 5]].
Proof. vm_compute. done. Qed.

(** C09: get and set. *)
Theorem C09_get : forall y ls v, valid y -> larry_get y ls = Ok v <-> cell y ls = Some v.
Proof. exact larry_get_ok. Qed.
Theorem C09_set : forall y ls v y',
  valid y -> larry_set y ls v = Ok y' ->
  valid y' /\ llabel y' = llabel y /\ lshape y' = lshape y /\ ldtype y' = ldtype y /\
  exists w, store (ldtype y) v = Ok w /\ cell y' ls = Some w /\ forall ls', ls' <> ls -> cell y' ls' = cell y ls'.
Proof. exact larry_set_spec. Qed.
Theorem C09_set_total : forall y ls v w,
  valid y -> in_grid (llabel y) ls -> store (ldtype y) v = Ok w -> exists y', larry_set y ls v = Ok y'.
Proof. exact larry_set_ok. Qed.
Theorem C09_store_own_dtype : forall dt v, has_dtype dt v = true -> store dt v = Ok v.
Proof. exact store_same. Qed.
Theorem C09_errors : forall y ls v,
  valid y ->
  (length ls <> lndim y -> larry_get y ls = Err ValueError /\ larry_set y ls v = Err ValueError) /\
  (length ls = lndim y -> ~ in_grid (llabel y) ls ->
   larry_get y ls = Err IndexError /\ larry_set y ls v = Err IndexError).
Proof. exact larry_get_set_errors. Qed.
Theorem C09_fill : forall y v y',
  valid y -> larry_fill y v = Ok y' ->
  valid y' /\ llabel y' = llabel y /\ ldtype y' = ldtype y /\
  exists w, store (ldtype y) v = Ok w /\ forall ls, in_grid (llabel y) ls -> cell y' ls = Some w.
Proof. exact larry_fill_spec. Qed.
Example C09_example :
  (y' ← larry_set ex2 [LStr "y"; LInt 9] (VFloat (num_of_Z 44)); larry_get y' [LStr "y"; LInt 9]) = Ok (VInt 44) /\
  larry_get ex2 [LStr "x"; LInt 5] = Ok (VInt 3) /\
  larry_get ex2 [LStr "x"] = Err ValueError /\ larry_get ex2 [LStr "x"; LInt 6] = Err IndexError.
Proof. vm_compute. done. Qed.

(** C11: take. *)
Theorem C11_take : forall y indices axis y',
  valid y -> larry_take y indices axis = Ok y' ->
  exists ax l lab', axis_is y axis ax /\ llabel y !! ax = Some l /\
  mapM (py_get l) indices = Some lab' /\
  valid y' /\ ldtype y' = ldtype y /\ llabel y' = <[ax := lab']> (llabel y) /\
  forall ls v, cell y' ls = Some v <-> cell y ls = Some v /\ exists a, ls !! ax = Some a /\ a ∈ lab'.
Proof. setoid_rewrite <-py_axis_is. exact larry_take_spec. Qed.
Theorem C11_take_total : forall y indices axis ax l,
  valid y -> axis_is y axis ax -> llabel y !! ax = Some l ->
  (forall z, z ∈ indices -> - Z.of_nat (length l) <= z < Z.of_nat (length l))%Z ->
  NoDup ((fun z => z mod Z.of_nat (length l))%Z <$> indices) ->
  exists y', larry_take y indices axis = Ok y'.
Proof. setoid_rewrite <-py_axis_is. exact larry_take_ok. Qed.
Theorem C11_take_error : forall y indices axis ax l,
  valid y -> axis_is y axis ax -> llabel y !! ax = Some l ->
  ~ ((forall z, z ∈ indices -> - Z.of_nat (length l) <= z < Z.of_nat (length l))%Z /\
     NoDup ((fun z => z mod Z.of_nat (length l))%Z <$> indices)) ->
  larry_take y indices axis = Err IndexError.
Proof. setoid_rewrite <-py_axis_is. exact larry_take_bad. Qed.
Example C11_example :
  larry_take ex2 [-1; 0]%Z (-1)%Z =
    Ok (Larry (Nda DInt (Arr [2; 2] (VInt <$> [3; 1; 6; 4]%Z))) [[LStr "x"; LStr "y"]; [LInt 5; LInt 7]]) /\
  larry_take ex2 [-1; 2]%Z 1%Z = Err IndexError /\ larry_take ex2 [3]%Z 1%Z = Err IndexError.
Proof. vm_compute. done. Qed.

(** C13: labelindex. *)
Theorem C13_labelindex_exact : forall y name axis i,
  valid y ->
  labelindex y name (Some axis) true = Ok i <->
  exists ax l, axis_is y axis ax /\ llabel y !! ax = Some l /\ l !! i = Some name.
Proof. setoid_rewrite <-py_axis_is. exact labelindex_exact. Qed.
Theorem C13_labelindex_error : forall y name axis e,
  labelindex y name (Some axis) true = Err e -> e = IndexError.
Proof. exact labelindex_exact_err. Qed.
Theorem C13_labelindex_present : forall y name axis i,
  labelindex y name (Some axis) true = Ok i -> labelindex y name (Some axis) false = Ok i.
Proof. exact labelindex_exact_false. Qed.
(** Greatest label <= name: true for ascending labels ... *)
Theorem C13_labelindex_inexact_partial : forall y name axis ax l i,
  valid y -> axis_is y axis ax -> llabel y !! ax = Some l -> name ∉ l ->
  (forall z, z ∈ l -> z = name \/ comparable z name = true) ->
  StronglySorted lab_lt l ->
  labelindex y name (Some axis) false = Ok i <->
  exists m, l !! i = Some m /\ lab_le m name /\ forall m', m' ∈ l -> lab_le m' name -> lab_le m' m.
Proof. setoid_rewrite <-py_axis_is. exact labelindex_inexact_sorted. Qed.
Theorem C13_labelindex_inexact_none : forall y name axis ax l,
  valid y -> axis_is y axis ax -> llabel y !! ax = Some l -> name ∉ l ->
  (forall z, z ∈ l -> z = name \/ comparable z name = true) ->
  (forall z, z ∈ l -> ~ lab_le z name) ->
  labelindex y name (Some axis) false = Err IndexError.
Proof. setoid_rewrite <-py_axis_is. exact labelindex_inexact_none. Qed.
(** ... in general it is the last position whose label is <= name, ... *)
Theorem C13_labelindex_inexact_general : forall y name axis ax l i,
  valid y -> axis_is y axis ax -> llabel y !! ax = Some l -> name ∉ l ->
  (forall z, z ∈ l -> z = name \/ comparable z name = true) ->
  labelindex y name (Some axis) false = Ok i <->
  exists m, l !! i = Some m /\ lab_le m name /\ forall j m', l !! j = Some m' -> lab_le m' name -> j <= i.
Proof. setoid_rewrite <-py_axis_is. exact labelindex_inexact. Qed.
(** ... which is not the greatest such label if labels are not sorted. *)
Theorem C13_labelindex_inexact_refuted : exists y name i l m,
  valid y /\ labelindex y name (Some 0%Z) false = Ok i /\ llabel y = [l] /\ l !! i = Some m /\
  exists m', m' ∈ l /\ lab_le m' name /\ lab_lt m m'.
Proof.
  exists (Larry (Nda DFloat (Arr [2] [vf 1; vf 2])) [[LInt 5; LInt 3]]), (LInt 6), 1, [LInt 5; LInt 3], (LInt 3).
  split_and!; try done.
  - solve_valid.
  - exists (LInt 5). split_and!; [left|vm_compute; done|vm_compute; done].
Qed.
Example C13_example :
  labelindex ex2 (LInt 9) (Some (-1)%Z) true = Ok 1 /\ labelindex ex2 (LInt 6) (Some 1%Z) true = Err IndexError /\
  labelindex ex2 (LInt 6) (Some 1%Z) false = Ok 2 /\ labelindex ex2 (LInt 1) (Some 1%Z) false = Err IndexError.
Proof. vm_compute. done. Qed.

(** C14: keep_label. *)
Theorem C14_keep_label : forall y op axis y',
  valid y -> keep_label y op (Some axis) = Ok y' ->
  exists ax l, axis_is y axis ax /\ llabel y !! ax = Some l /\
  exists kept, kept `sublist_of` l /\ (forall z, z ∈ kept <-> z ∈ l /\ op_holds op z) /\
  (kept <> [] ->
   valid y' /\ ldtype y' = ldtype y /\ llabel y' = <[ax := kept]> (llabel y) /\
   forall ls v, cell y' ls = Some v <-> cell y ls = Some v /\ exists a, ls !! ax = Some a /\ op_holds op a) /\
  (kept = [] -> y' = Larry (Nda DFloat (Arr [0] [])) [[]]).
Proof. setoid_rewrite <-py_axis_is. exact keep_label_spec. Qed.
Theorem C14_keep_label_total : forall y op axis,
  valid y ->
  (exists y', keep_label y op (Some axis) = Ok y') <->
  exists ax l, axis_is y axis ax /\ llabel y !! ax = Some l /\ forall z, z ∈ l -> op_defined op z.
Proof. exact keep_label_iff. Qed.
Theorem C14_keep_label_undefined : forall y op axis ax l z,
  valid y -> axis_is y axis ax -> llabel y !! ax = Some l -> z ∈ l -> ~ op_defined op z ->
  keep_label y op (Some axis) = Err TypeError.
Proof. exact keep_label_undefined. Qed.
(** If nothing matches, the labels of the other axes are lost. *)
Theorem C14_keep_label_nothing_refuted : exists y op y',
  valid y /\ keep_label y op (Some 0%Z) = Ok y' /\ length (llabel y') <> length (llabel y).
Proof.
  exists ex2, (KEq (LStr "z")), empty_larry. split_and!; [exact ex2_valid|vm_compute; done|done].
Qed.
Example C14_example :
  keep_label ex2 (KGe (LInt 7)) (Some (-1)%Z) =
    Ok (Larry (Nda DInt (Arr [2; 2] (VInt <$> [1; 2; 4; 5]%Z))) [[LStr "x"; LStr "y"]; [LInt 7; LInt 9]]) /\
  llabel <$> keep_label ex2 (KNotIn [LStr "x"; LInt 3]) (Some 0%Z) = Ok [[LStr "y"]; [LInt 7; LInt 9; LInt 5]].
Proof. vm_compute. done. Qed.

(** C15: pull.  [remove_at ax l] is [l] without its entry [ax]; [insert_at ax x
    l] puts [x] there. *)
Theorem C15_pull : forall y name axis o,
  valid y -> 1 < lndim y -> pull y name (Some axis) = Ok o ->
  exists ax l, axis_is y axis ax /\ llabel y !! ax = Some l /\ name ∈ l /\
  (length <$> remove_at ax (llabel y) <> [1] ->
   exists z, o = OLar z /\ valid z /\ ldtype z = ldtype y /\ llabel z = remove_at ax (llabel y) /\
   forall ls, in_grid (llabel z) ls -> cell z ls = cell y (insert_at ax name ls)).
Proof. setoid_rewrite <-py_axis_is. exact pull_spec. Qed.
Theorem C15_pull_1d : forall y name axis o,
  valid y -> lndim y = 1 -> pull y name (Some axis) = Ok o ->
  exists v, o = OVal v /\ cell y [name] = Some v.
Proof. exact pull_1d. Qed.
Theorem C15_pull_total : forall y name axis,
  valid y ->
  (exists o, pull y name (Some axis) = Ok o) <-> exists ax l, axis_is y axis ax /\ llabel y !! ax = Some l /\ name ∈ l.
Proof. exact pull_iff. Qed.
Theorem C15_pull_unknown : forall y name axis ax l,
  valid y -> axis_is y axis ax -> llabel y !! ax = Some l -> name ∉ l ->
  pull y name (Some axis) = Err IndexError.
Proof. setoid_rewrite <-py_axis_is. exact pull_unknown. Qed.
(** A 2d larry whose other axis has length one gives a scalar, always. *)
Theorem C15_pull_scalar : forall y name axis ax l n,
  valid y -> axis_is y axis ax -> llabel y !! ax = Some l -> name ∈ l -> remove_at ax (llabel y) = [[n]] ->
  exists v, pull y name (Some axis) = Ok (OVal v) /\ cell y (insert_at ax name [n]) = Some v.
Proof. exact pull_scalar. Qed.
Theorem C15_pull_scalar_refuted : exists y name v,
  valid y /\ lndim y = 2 /\ pull y name (Some 0%Z) = Ok (OVal v).
Proof.
  exists (Larry (Nda DInt (Arr [2; 1] [VInt 4; VInt 6])) [[LStr "x"; LStr "y"]; [LInt 7]]), (LStr "y"), (VInt 6).
  split_and!; [|done|vm_compute; done].
  solve_valid.
Qed.
Example C15_example :
  pull ex2 (LInt 9) (Some 1%Z) = Ok (OLar (Larry (Nda DInt (Arr [2] [VInt 2; VInt 5])) [[LStr "x"; LStr "y"]])) /\
  pull ex1 (LStr "a") (Some 0%Z) = Ok (OVal (vf 20)).
Proof. vm_compute. done. Qed.

(** C28: flipaxis. *)
Theorem C28_flipaxis : forall y axis ax l,
  valid y -> axis_is y axis ax -> llabel y !! ax = Some l ->
  exists y', flipaxis y (Some axis) = Ok y' /\ valid y' /\ ldtype y' = ldtype y /\
  llabel y' = <[ax := reverse l]> (llabel y) /\ forall ls, cell y' ls = cell y ls.
Proof. setoid_rewrite <-py_axis_is. exact flipaxis_some. Qed.
Theorem C28_flipaxis_all : forall y,
  valid y ->
  exists y', flipaxis y None = Ok y' /\ valid y' /\ ldtype y' = ldtype y /\
  llabel y' = reverse <$> llabel y /\ forall ls, cell y' ls = cell y ls.
Proof. exact flipaxis_none. Qed.
Theorem C28_flipaxis_involutive : forall y axis y',
  valid y -> flipaxis y (Some axis) = Ok y' -> flipaxis y' (Some axis) = Ok y.
Proof. exact flipaxis_some_invol. Qed.
Theorem C28_flipaxis_all_involutive : forall y y',
  valid y -> flipaxis y None = Ok y' -> flipaxis y' None = Ok y.
Proof. exact flipaxis_none_invol. Qed.
Theorem C28_flipaxis_error : forall y axis, (forall ax, ~ axis_is y axis ax) -> flipaxis y (Some axis) = Err IndexError.
Proof. exact flipaxis_error. Qed.
Example C28_example :
  flipaxis ex2 (Some 1%Z) =
    Ok (Larry (Nda DInt (Arr [2; 3] (VInt <$> [3; 2; 1; 6; 5; 4]%Z))) [[LStr "x"; LStr "y"]; [LInt 5; LInt 9; LInt 7]]).
Proof. vm_compute. done. Qed.

(** C29: transpose and swapaxes. *)
Theorem C29_transpose : forall y,
  valid y ->
  exists y', larry_T y = Ok y' /\ valid y' /\ ldtype y' = ldtype y /\ llabel y' = reverse (llabel y) /\
  forall ls, cell y' ls = cell y (reverse ls).
Proof. exact larry_T_spec. Qed.
Theorem C29_transpose_involutive : forall y y', valid y -> larry_T y = Ok y' -> larry_T y' = Ok y.
Proof. exact larry_T_invol. Qed.
(** [swap_total i j l] is [l] with entries [i] and [j] exchanged. *)
Theorem C29_swap_total : forall (l : list lab) i j k,
  i < length l -> j < length l ->
  swap_total i j l !! k = l !! (if decide (k = i) then j else if decide (k = j) then i else k).
Proof. exact (fun l i j k => swap_total_lookup i j l k). Qed.
Theorem C29_swapaxes : forall y a1 a2 i j,
  valid y -> axis_is y a1 i -> axis_is y a2 j ->
  exists y', swapaxes y a1 a2 = Ok y' /\ valid y' /\ ldtype y' = ldtype y /\
  llabel y' = swap_total i j (llabel y) /\
  forall ls, in_grid (llabel y) ls -> cell y' (swap_total i j ls) = cell y ls.
Proof. setoid_rewrite <-py_axis_is. exact swapaxes_spec. Qed.
Theorem C29_swapaxes_involutive : forall y a1 a2 y',
  valid y -> swapaxes y a1 a2 = Ok y' -> swapaxes y' a1 a2 = Ok y.
Proof. exact swapaxes_invol. Qed.
Theorem C29_swapaxes_error : forall y a1 a2, (forall ax, ~ axis_is y a1 ax) \/ (forall ax, ~ axis_is y a2 ax) ->
  swapaxes y a1 a2 = Err IndexError.
Proof. exact swapaxes_error. Qed.
Example C29_example :
  larry_T ex2 = Ok (Larry (Nda DInt (Arr [3; 2] (VInt <$> [1; 4; 2; 5; 3; 6]%Z))) [[LInt 7; LInt 9; LInt 5]; [LStr "x"; LStr "y"]]) /\
  swapaxes ex2 0 (-1) = larry_T ex2.
Proof. vm_compute. done. Qed.

(** C30: insertaxis, squeeze and pull. *)
Theorem C30_insertaxis : forall y axis name,
  valid y -> (- Z.of_nat (lndim y) - 1 <= axis <= Z.of_nat (lndim y))%Z ->
  exists y', insertaxis y (Some axis) name = Ok y' /\ valid y' /\ ldtype y' = ldtype y /\
  llabel y' = insert_at (new_axis (lndim y) axis) [name] (llabel y) /\
  forall ls, in_grid (llabel y) ls -> cell y' (insert_at (new_axis (lndim y) axis) name ls) = cell y ls.
Proof. exact insertaxis_spec. Qed.
Theorem C30_insertaxis_pull : forall y axis name y',
  valid y -> (- Z.of_nat (lndim y) - 1 <= axis <= Z.of_nat (lndim y))%Z ->
  insertaxis y (Some axis) name = Ok y' ->
  lshape y <> [1] -> pull y' name (Some axis) = Ok (OLar y).
Proof. exact insertaxis_pull. Qed.
Theorem C30_insertaxis_squeeze : forall y axis name y',
  valid y -> (- Z.of_nat (lndim y) - 1 <= axis <= Z.of_nat (lndim y))%Z ->
  insertaxis y (Some axis) name = Ok y' ->
  (forall n, n ∈ lshape y -> n <> 1) -> squeeze y' = y.
Proof. exact insertaxis_squeeze. Qed.
(** [drop_ones label ls] leaves out the coordinates of axes of length one. *)
Theorem C30_squeeze : forall y,
  valid y ->
  llabel (squeeze y) = filter (fun axis => length axis <> 1) (llabel y) /\
  ldtype (squeeze y) = ldtype y /\
  (valid (squeeze y) <-> exists axis, axis ∈ llabel y /\ length axis <> 1) /\
  forall ls, in_grid (llabel y) ls -> cell (squeeze y) (drop_ones (llabel y) ls) = cell y ls.
Proof. exact squeeze_spec. Qed.
(** Pulling the inserted axis of a one element larry gives a scalar instead of
    the larry. *)
Theorem C30_insertaxis_pull_refuted : exists y name y' v,
  valid y /\ insertaxis y (Some 0%Z) name = Ok y' /\ pull y' name (Some 0%Z) = Ok (OVal v).
Proof.
  exists (Larry (Nda DInt (Arr [1] [VInt 4])) [[LStr "x"]]), (LStr "n"),
    (Larry (Nda DInt (Arr [1; 1] [VInt 4])) [[LStr "n"]; [LStr "x"]]), (VInt 4).
  split_and!; [|vm_compute; done|vm_compute; done].
  solve_valid.
Qed.
(** Beyond the last axis is the last axis.  Before the first axis numpy and
    Python's list disagree on the place: unless the axes between the two places
    have length one ValueError is raised. *)
Theorem C30_insertaxis_above : forall y axis name, valid y -> (Z.of_nat (lndim y) <= axis)%Z ->
  insertaxis y (Some axis) name = insertaxis y (Some (Z.of_nat (lndim y))) name.
Proof. exact insertaxis_above. Qed.
Theorem C30_insertaxis_below : forall y axis name, valid y -> (axis < - Z.of_nat (lndim y) - 1)%Z ->
  (forall z, insertaxis y (Some axis) name = Ok z <->
    (forall k, (Z.of_nat k < axis + 2 * Z.of_nat (lndim y) + 1)%Z -> lshape y !! k = Some 1) /\
    insertaxis y (Some 0%Z) name = Ok z) /\
  ((exists z, insertaxis y (Some axis) name = Ok z) \/ insertaxis y (Some axis) name = Err ValueError).
Proof. exact insertaxis_below. Qed.
Theorem C30_insertaxis_none : forall y name, insertaxis y None name = Err ValueError.
Proof. exact insertaxis_none. Qed.
Example C30_below_example :
  insertaxis ex2 (Some (-4)%Z) (LInt 0) = Err ValueError /\ insertaxis ex2 (Some (-5)%Z) (LInt 0) = insertaxis ex2 (Some 0%Z) (LInt 0) /\
  insertaxis ex2 (Some 7%Z) (LInt 0) = insertaxis ex2 (Some 2%Z) (LInt 0).
Proof. vm_compute. done. Qed.
Example C30_example :
  insertaxis ex2 (Some (-2)%Z) (LInt 0) =
    Ok (Larry (Nda DInt (Arr [2; 1; 3] (VInt <$> [1; 2; 3; 4; 5; 6]%Z))) [[LStr "x"; LStr "y"]; [LInt 0]; [LInt 7; LInt 9; LInt 5]]) /\
  (squeeze <$> insertaxis ex2 (Some 2%Z) (LInt 0)) = Ok ex2.
Proof. vm_compute. done. Qed.

(** C31: lag. *)
Theorem C31_lag_positive : forall y k axis ax l,
  valid y -> 0 < k -> axis_is y axis ax -> llabel y !! ax = Some l ->
  exists y', lag y (Z.of_nat k) (Some axis) = Ok y' /\ valid y' /\ ldtype y' = ldtype y /\
  llabel y' = <[ax := drop k l]> (llabel y) /\
  forall ls i new old, ls !! ax = Some new -> l !! (i + k) = Some new -> l !! i = Some old ->
    cell y' ls = cell y (<[ax := old]> ls).
Proof. setoid_rewrite <-py_axis_is. exact lag_pos. Qed.
Theorem C31_lag_negative : forall y k axis ax l,
  valid y -> 0 < k -> axis_is y axis ax -> llabel y !! ax = Some l ->
  exists y', lag y (- Z.of_nat k) (Some axis) = Ok y' /\ valid y' /\ ldtype y' = ldtype y /\
  llabel y' = <[ax := take (length l - k) l]> (llabel y) /\
  forall ls i new old, ls !! ax = Some new -> l !! i = Some new -> l !! (i + k) = Some old ->
    cell y' ls = cell y (<[ax := old]> ls).
Proof. setoid_rewrite <-py_axis_is. exact lag_neg. Qed.
Theorem C31_lag_zero : forall y axis, lag y 0 (Some axis) = Ok y.
Proof. exact lag_zero. Qed.
Theorem C31_lag_error : forall y nlag axis, (lag y nlag None = Err IndexError) /\
  (nlag <> 0%Z -> (forall ax, ~ axis_is y axis ax) -> lag y nlag (Some axis) = Err IndexError).
Proof. exact lag_error. Qed.
Example C31_example :
  lag ex2 1 (Some 1%Z) =
    Ok (Larry (Nda DInt (Arr [2; 2] (VInt <$> [1; 2; 4; 5]%Z))) [[LStr "x"; LStr "y"]; [LInt 9; LInt 5]]) /\
  lag ex2 (-2) (Some (-1)%Z) =
    Ok (Larry (Nda DInt (Arr [2; 1] (VInt <$> [3; 6]%Z))) [[LStr "x"; LStr "y"]; [LInt 7]]) /\
  lshape <$> lag ex2 5 (Some 0%Z) = Ok [0; 3].
Proof. vm_compute. done. Qed.

Print Assumptions C06_make_iff.
Print Assumptions C06_make_error.
Print Assumptions C06_make_valid.
Print Assumptions C06_make_default_labels.
Print Assumptions C06_make_default_error.
Print Assumptions C06_make_default_valid.
Print Assumptions C08_maplabel_all.
Print Assumptions C08_maplabel_axis.
Print Assumptions C08_maplabel_succeeds.
Print Assumptions C09_get.
Print Assumptions C09_set.
Print Assumptions C09_set_total.
Print Assumptions C09_store_own_dtype.
Print Assumptions C09_errors.
Print Assumptions C09_fill.
Print Assumptions C11_take.
Print Assumptions C11_take_total.
Print Assumptions C11_take_error.
Print Assumptions C13_labelindex_exact.
Print Assumptions C13_labelindex_error.
Print Assumptions C13_labelindex_present.
Print Assumptions C13_labelindex_inexact_partial.
Print Assumptions C13_labelindex_inexact_none.
Print Assumptions C13_labelindex_inexact_general.
Print Assumptions C13_labelindex_inexact_refuted.
Print Assumptions C14_keep_label.
Print Assumptions C14_keep_label_total.
Print Assumptions C14_keep_label_undefined.
Print Assumptions C14_keep_label_nothing_refuted.
Print Assumptions C15_pull.
Print Assumptions C15_pull_1d.
Print Assumptions C15_pull_total.
Print Assumptions C15_pull_unknown.
Print Assumptions C15_pull_scalar.
Print Assumptions C15_pull_scalar_refuted.
Print Assumptions C28_flipaxis.
Print Assumptions C28_flipaxis_all.
Print Assumptions C28_flipaxis_involutive.
Print Assumptions C28_flipaxis_all_involutive.
Print Assumptions C28_flipaxis_error.
Print Assumptions C29_transpose.
Print Assumptions C29_transpose_involutive.
Print Assumptions C29_swap_total.
Print Assumptions C29_swapaxes.
Print Assumptions C29_swapaxes_involutive.
Print Assumptions C29_swapaxes_error.
Print Assumptions C30_insertaxis.
Print Assumptions C30_insertaxis_pull.
Print Assumptions C30_insertaxis_squeeze.
Print Assumptions C30_squeeze.
Print Assumptions C30_insertaxis_pull_refuted.
Print Assumptions C30_insertaxis_above.
Print Assumptions C30_insertaxis_below.
Print Assumptions C30_insertaxis_none.
Print Assumptions C31_lag_positive.
Print Assumptions C31_lag_negative.
Print Assumptions C31_lag_zero.
Print Assumptions C31_lag_error.
