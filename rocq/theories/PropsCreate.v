(** Properties C51-C55: stack, panel, cov, sortby and the creation functions
    (la/flarry.py). *)
From Verif Require Import StackFacts CovFacts SortbyFacts CreateFacts.
From Verif Require Import PropsLarry PropsAlign PropsOps PropsNumeric PropsIndex.

(** C51: stack. *)
Theorem C51_stack : forall mode kwargs z,
  Forall valid kwargs.*2 -> NoDup kwargs.*1 -> stack mode kwargs = Ok z ->
  valid z /\ ldtype z = DFloat /\ exists keys row col, llabel z = [keys; row; col] /\
  StronglySorted lab_lt keys /\ (forall x, x ∈ keys <-> exists name y, (name, y) ∈ kwargs /\ x = LStr name) /\
  combined mode kwargs 0 row /\ combined mode kwargs 1 col /\
  forall name y r c, (name, y) ∈ kwargs -> r ∈ row -> c ∈ col ->
    cell z [LStr name; r; c] = Some (match cell y [r; c] with Some v => val_to_float v | None => VFloat NaN end).
Proof. exact stack_spec. Qed.
Theorem C51_stack_succeeds : forall mode kwargs,
  mode <> SBad -> (mode = SInter -> kwargs <> []) -> NoDup kwargs.*1 ->
  Forall (fun y => valid y /\ lndim y = 2 /\ (ldtype y = DFloat \/ ldtype y = DInt \/ ldtype y = DBool)) kwargs.*2 ->
  names_sortable kwargs 0 -> names_sortable kwargs 1 -> exists z, stack mode kwargs = Ok z.
Proof. exact stack_ok. Qed.
Theorem C51_stack_not_2d : forall mode kwargs name y, (name, y) ∈ kwargs -> lndim y <> 2 -> stack mode kwargs = Err ValueError.
Proof. exact stack_not_2d. Qed.
Theorem C51_stack_bad_mode : forall kwargs, stack SBad kwargs = Err ValueError.
Proof. exact stack_bad_mode. Qed.
Example C51_example :
  stack SUnion [("second", ex3); ("first", exi)] =
    Ok (Larry (Nda DFloat (Arr [2; 4; 4]
       ([vf 1; vf 2; VFloat NaN; VFloat NaN; vf 3; vf 4; VFloat NaN; VFloat NaN] ++ replicate 8 (VFloat NaN) ++
        replicate 8 (VFloat NaN) ++ [VFloat NaN; VFloat NaN; vf 9; vf 10; VFloat NaN; VFloat NaN; vf 7; vf 8])))
      [[LStr "first"; LStr "second"]; [LStr "a"; LStr "b"; LStr "w"; LStr "y"]; [LInt 1; LInt 2; LInt 9; LInt 11]]) /\
  stack SInter [("v", exv); ("m", exm); ("i", exi)] =
    Ok (Larry (Nda DFloat (Arr [3; 2; 2]
       [vf 1; vf 2; vf 3; vf 4; vf 1; VFloat NaN; vf 4; vf 5; VFloat NaN; VFloat NaN; vf 4; VFloat NaN]))
      [[LStr "i"; LStr "m"; LStr "v"]; [LStr "a"; LStr "b"]; [LInt 1; LInt 2]]).
Proof. by_compute. Qed.

(** C52: panel. *)
Theorem C52_panel_partial : forall y,
  valid y -> lndim y = 3 -> lshape y !! 0 <> Some 0 ->
  exists z l0 l1 l2 row, panel y = Ok z /\ valid z /\ ldtype z = ldtype y /\ llabel y = [l0; l1; l2] /\ llabel z = [row; l0] /\
  length row = length l1 * length l2 /\
  (forall i j a b, l1 !! i = Some a -> l2 !! j = Some b -> row !! (i * length l2 + j) = Some (LTup [a; b])) /\
  forall a b c, a ∈ l0 -> b ∈ l1 -> c ∈ l2 -> cell z [LTup [b; c]; a] = cell y [a; b; c].
Proof. exact panel_spec. Qed.
Theorem C52_panel_not_3d : forall y, valid y -> lndim y <> 3 -> panel y = Err ValueError.
Proof. exact panel_not_3d. Qed.
(** A larry with nothing along its first axis is always refused. *)
Theorem C52_panel_empty : forall y, valid y -> lndim y = 3 -> lshape y !! 0 = Some 0 -> panel y = Err ValueError.
Proof. exact panel_empty. Qed.
(** A 3d larry with an empty first axis cannot be reshaped with -1. *)
Theorem C52_panel_empty_refuted : exists y, valid y /\ lndim y = 3 /\ panel y = Err ValueError.
Proof. exact panel_empty_refuted. Qed.
Example C52_example :
  panel exc =
    Ok (Larry (Nda DInt (Arr [6; 2] (VInt <$> [1; 7; 2; 8; 3; 9; 4; 10; 5; 11; 6; 12]%Z)))
      [[LTup [LStr "x"; LInt 7]; LTup [LStr "x"; LInt 9]; LTup [LStr "x"; LInt 5];
        LTup [LStr "y"; LInt 7]; LTup [LStr "y"; LInt 9]; LTup [LStr "y"; LInt 5]]; [LStr "a"; LStr "b"]]) /\
  panel exm = Err ValueError.
Proof. by_compute. Qed.

(** C53: cov. *)
Theorem C53_cov : forall y z,
  valid y -> larry_cov y = Ok z ->
  exists l0 cols, llabel y = [l0; cols] /\ valid z /\ ldtype z = DFloat /\ llabel z = [l0; l0] /\
  (forall a b, cell z [a; b] = cell z [b; a]) /\
  (forall a, a ∈ l0 -> exists n, cell z [a; a] = Some (VFloat n) /\ num_le (num_of_Z 0) n) /\
  (forall a b, a ∈ l0 -> b ∈ l0 -> exists cs, common_columns y a b cs /\ 2 <= length cs).
Proof. exact cov_spec. Qed.
Theorem C53_cov_entries_partial : forall y z l0 a b,
  valid y -> larry_cov y = Ok z -> ldtype y <> DBool -> llabel y !! 0 = Some l0 -> a ∈ l0 -> b ∈ l0 -> no_inf_opposite_nan y a b ->
  exists n, cell z [a; b] = Some (VFloat n) /\ cov_entry y a b n.
Proof. exact cov_entries. Qed.
Theorem C53_cov_few : forall y l0 a b cs,
  valid y -> lndim y = 2 -> (ldtype y = DFloat \/ ldtype y = DInt \/ ldtype y = DBool) -> llabel y !! 0 = Some l0 -> a ∈ l0 -> b ∈ l0 ->
  common_columns y a b cs -> length cs < 2 -> larry_cov y = Err ValueError.
Proof. exact cov_few. Qed.
Theorem C53_cov_succeeds : forall y l0,
  valid y -> lndim y = 2 -> (ldtype y = DFloat \/ ldtype y = DInt \/ ldtype y = DBool) -> llabel y !! 0 = Some l0 ->
  (forall a b cs, a ∈ l0 -> b ∈ l0 -> common_columns y a b cs -> 2 <= length cs) -> exists z, larry_cov y = Ok z.
Proof. exact cov_ok. Qed.
Theorem C53_cov_not_2d : forall y, lndim y <> 2 -> larry_cov y = Err ValueError.
Proof. exact cov_not_2d. Qed.
(** An infinity opposite a NaN makes the entry NaN although that column is not
    one of the common ones. *)
Theorem C53_cov_inf : forall y z l0 a b c n,
  valid y -> larry_cov y = Ok z -> llabel y !! 0 = Some l0 -> a ∈ l0 -> b ∈ l0 -> is_inf n = true ->
  number_at y [a; c] n /\ number_at y [b; c] NaN \/ number_at y [a; c] NaN /\ number_at y [b; c] n ->
  cell z [a; b] = Some (VFloat NaN).
Proof. exact cov_inf. Qed.
(** The products of bools are not counted: an entry is one over the number of
    columns if some column is true in both rows, else zero. *)
Theorem C53_cov_bool : forall y z l0 cols a b,
  valid y -> larry_cov y = Ok z -> ldtype y = DBool -> llabel y = [l0; cols] -> a ∈ l0 -> b ∈ l0 ->
  exists k, cell z [a; b] = Some (VFloat (num_div (num_of_Z k) (num_of_nat (length cols)))) /\
    ((exists c, cell y [a; c] = Some (VBool true) /\ cell y [b; c] = Some (VBool true)) /\ k = 1%Z \/
     (forall c, cell y [a; c] = Some (VBool true) -> cell y [b; c] <> Some (VBool true)) /\ k = 0%Z).
Proof. exact cov_bool. Qed.
Theorem C53_cov_inf_refuted :
  exists y z a b, valid y /\ ldtype y = DFloat /\ larry_cov y = Ok z /\ a ≠ b /\ cell z [a; b] = Some (VFloat NaN) /\ ~ cov_entry y a b NaN.
Proof. exact cov_inf_refuted. Qed.
Example C53_example :
  larry_cov exm =
    Ok (Larry (Nda DFloat (Arr [2; 2] [vf 5; vf (-7); vf (-7); VFloat (num_div (num_of_Z 77) (num_of_Z 3))]))
      [[LStr "a"; LStr "b"]; [LStr "a"; LStr "b"]]) /\
  larry_cov exv = Err ValueError.
Proof. by_compute. Qed.

(** C54: sortby, for every argsort. *)
Theorem C54_sortby : forall argsort y element axis rev z,
  good_argsort argsort -> valid y -> sortby argsort y element axis rev = Ok z ->
  exists ax, axis_is y axis ax /\ sorted_by y element ax rev z.
Proof. exact sortby_spec. Qed.
Theorem C54_sortby_succeeds : forall argsort y element axis ax l rev,
  good_argsort argsort -> valid y -> lndim y = 2 -> axis_is y axis ax -> llabel y !! ax = Some l -> element ∈ l -> ldtype y <> DObj ->
  exists z, sortby argsort y element axis rev = Ok z.
Proof. exact sortby_ok. Qed.
Theorem C54_sortby_unknown : forall argsort y element axis ax l rev,
  good_argsort argsort -> valid y -> lndim y = 2 -> axis_is y axis ax -> llabel y !! ax = Some l -> element ∉ l ->
  sortby argsort y element axis rev = Err IndexError.
Proof. exact sortby_unknown. Qed.
Theorem C54_sortby_not_2d : forall argsort y element axis rev, lndim y <> 2 -> sortby argsort y element axis rev = Err ValueError.
Proof. exact sortby_not_2d. Qed.
(** Such an argsort exists. *)
Theorem C54_argsort_exists : good_argsort np_argsort.
Proof. exact np_argsort_good. Qed.
Example C54_example :
  sortby np_argsort exm (LStr "b") 0 false =
    Ok (Larry (Nda DFloat (Arr [2; 3] [vf 3; vf 1; VFloat NaN; vf (-6); vf 4; vf 5])) [[LStr "a"; LStr "b"]; [LInt 3; LInt 1; LInt 2]]) /\
  sortby np_argsort exm (LStr "a") (-2) true =
    Ok (Larry (Nda DFloat (Arr [2; 3] [VFloat NaN; vf 3; vf 1; vf 5; vf (-6); vf 4])) [[LStr "a"; LStr "b"]; [LInt 2; LInt 3; LInt 1]]) /\
  sortby np_argsort exm (LInt 3) 1 false =
    Ok (Larry (Nda DFloat (Arr [2; 3] [vf 4; vf 5; vf (-6); vf 1; VFloat NaN; vf 3])) [[LStr "b"; LStr "a"]; [LInt 1; LInt 2; LInt 3]]) /\
  sortby np_argsort exm (LStr "z") 0 false = Err IndexError.
Proof. by_compute. Qed.

(** C55: creation.  lrange with the default type, float, or the type of the
    arguments. *)
Theorem C55_lrange : forall shape label start step dt z,
  lrange shape label start step dt = Ok z -> dt = None \/ dt = Some DFloat \/ dt = Some (range_dtype start step) ->
  exists sh p q, new_shape shape label sh /\ to_num start = Some p /\ to_num step = Some q /\
    valid z /\ lshape z = sh /\ new_labels label sh (llabel z) /\
    ldtype z = match dt with Some d => d | None => range_dtype start step end /\
    forall idx ls, labels_at (llabel z) idx ls -> number_at z ls (num_add p (num_mul q (num_of_nat (c_order sh idx)))).
Proof. exact lrange_spec. Qed.
(** An int larry from float arguments continues the first two elements. *)
(** Without a dtype the result is int if both numbers are, else float. *)
Theorem C55_lrange_dtype : forall shape label start step z, lrange shape label start step None = Ok z ->
  ((exists a b, start = VInt a /\ step = VInt b) -> ldtype z = DInt) /\
  (~ (exists a b, start = VInt a /\ step = VInt b) -> ldtype z = DFloat).
Proof. exact lrange_dtype. Qed.
Theorem C55_lrange_int : forall shape label start step z,
  lrange shape label start step (Some DInt) = Ok z ->
  exists sh p q v0 v1 a b, new_shape shape label sh /\ to_num start = Some p /\ to_num step = Some q /\ valid z /\ lshape z = sh /\
    new_labels label sh (llabel z) /\ ldtype z = DInt /\
    (size_of sh <> 0 -> to_num v0 = Some p /\ to_num v1 = Some (num_add p q) /\ store DInt v0 = Ok (VInt a) /\ store DInt v1 = Ok (VInt b)) /\
    forall idx ls, labels_at (llabel z) idx ls -> cell z ls = Some (VInt (a + (b - a) * Z.of_nat (c_order sh idx))).
Proof. exact lrange_int_spec. Qed.
Theorem C55_lrange_succeeds : forall shape label start step dt sh p q,
  creatable shape label sh -> to_num start = Some (Fin p) -> to_num step = Some (Fin q) -> q <> 0%Qc ->
  has_dtype DBool start = false -> has_dtype DBool step = false -> dt = None \/ dt = Some DFloat \/ dt = Some DInt ->
  exists z, lrange shape label start step dt = Ok z.
Proof. exact lrange_ok. Qed.
Theorem C55_empty : forall f dt shape label z,
  array_source dt f -> larry_empty f shape label = Ok z ->
  exists sh, new_shape shape label sh /\ valid z /\ lshape z = sh /\ ldtype z = dt /\ new_labels label sh (llabel z).
Proof. exact empty_spec. Qed.
Theorem C55_empty_succeeds : forall f dt shape label sh,
  array_source dt f -> creatable shape label sh -> exists z, larry_empty f shape label = Ok z.
Proof. exact empty_ok. Qed.
Theorem C55_ones : forall f dt shape label z,
  array_source dt f -> larry_ones f shape label = Ok z ->
  exists sh, new_shape shape label sh /\ valid z /\ lshape z = sh /\ ldtype z = dt /\ new_labels label sh (llabel z) /\
    forall ls, in_grid (llabel z) ls -> number_at z ls (num_of_Z 1).
Proof. exact ones_spec. Qed.
Theorem C55_zeros : forall f dt shape label z,
  array_source dt f -> larry_zeros f shape label = Ok z ->
  exists sh, new_shape shape label sh /\ valid z /\ lshape z = sh /\ ldtype z = dt /\ new_labels label sh (llabel z) /\
    forall ls, in_grid (llabel z) ls -> number_at z ls (num_of_Z 0).
Proof. exact zeros_spec. Qed.
Theorem C55_ones_zeros_succeed : forall f dt shape label sh,
  array_source dt f -> dt <> DStr -> creatable shape label sh ->
  (exists z, larry_ones f shape label = Ok z) /\ exists z, larry_zeros f shape label = Ok z.
Proof. exact ones_zeros_ok. Qed.
Theorem C55_neither : forall f start step dt,
  lrange None None start step dt = Err ValueError /\ larry_empty f None None = Err ValueError /\
  larry_ones f None None = Err ValueError /\ larry_zeros f None None = Err ValueError.
Proof. exact create_neither. Qed.
Theorem C55_rand : forall f dt args label z,
  array_source dt f -> larry_rand f args label = Ok (OLar z) ->
  exists sh, (if decide (args = []) then exists l, label = Some l /\ sh = length <$> l else sh = args) /\
    lx z = f sh /\ valid z /\ lshape z = sh /\ new_labels label sh (llabel z).
Proof. exact rand_spec. Qed.
Example C55_example :
  lrange (Some [2; 3]) None (VInt 5) (VInt (-2)) None =
    Ok (Larry (Nda DInt (Arr [2; 3] (VInt <$> [5; 3; 1; -1; -3; -5]%Z))) [[LInt 0; LInt 1]; [LInt 0; LInt 1; LInt 2]]) /\
  lrange (Some [7]) (Some [[LStr "a"; LStr "b"]]) (VInt 1) (VFloat (num_div (num_of_Z 1) (num_of_Z 2))) None =
    Ok (Larry (Nda DFloat (Arr [2] [vf 1; VFloat (num_div (num_of_Z 3) (num_of_Z 2))])) [[LStr "a"; LStr "b"]]) /\
  lrange (Some [4]) None (VInt 0) (VFloat (num_div (num_of_Z 3) (num_of_Z 2))) (Some DInt) =
    Ok (Larry (Nda DInt (Arr [4] (VInt <$> [0; 1; 2; 3]%Z))) [[LInt 0; LInt 1; LInt 2; LInt 3]]) /\
  larry_ones (fun sh => Nda DFloat (Arr sh (replicate (size_of sh) (vf 9)))) None (Some [[LStr "a"; LStr "b"]; [LStr "x"]]) =
    Ok (Larry (Nda DFloat (Arr [2; 1] [vf 1; vf 1])) [[LStr "a"; LStr "b"]; [LStr "x"]]) /\
  larry_zeros (fun sh => Nda DBool (Arr sh (replicate (size_of sh) (VBool true)))) (Some [2]) None =
    Ok (Larry (Nda DBool (Arr [2] [VBool false; VBool false])) [[LInt 0; LInt 1]]).
Proof. by_compute. Qed.

Print Assumptions C51_stack.
Print Assumptions C51_stack_succeeds.
Print Assumptions C51_stack_not_2d.
Print Assumptions C51_stack_bad_mode.
Print Assumptions C52_panel_partial.
Print Assumptions C52_panel_not_3d.
Print Assumptions C52_panel_empty.
Print Assumptions C52_panel_empty_refuted.
Print Assumptions C53_cov.
Print Assumptions C53_cov_entries_partial.
Print Assumptions C53_cov_few.
Print Assumptions C53_cov_succeeds.
Print Assumptions C53_cov_not_2d.
Print Assumptions C53_cov_inf.
Print Assumptions C53_cov_bool.
Print Assumptions C53_cov_inf_refuted.
Print Assumptions C54_sortby.
Print Assumptions C54_sortby_succeeds.
Print Assumptions C54_sortby_unknown.
Print Assumptions C54_sortby_not_2d.
Print Assumptions C54_argsort_exists.
Print Assumptions C55_lrange.
Print Assumptions C55_lrange_dtype.
Print Assumptions C55_lrange_int.
Print Assumptions C55_lrange_succeeds.
Print Assumptions C55_empty.
Print Assumptions C55_empty_succeeds.
Print Assumptions C55_ones.
Print Assumptions C55_zeros.
Print Assumptions C55_ones_zeros_succeed.
Print Assumptions C55_neither.
Print Assumptions C55_rand.
