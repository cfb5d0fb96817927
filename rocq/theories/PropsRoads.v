(** C101: different calls with the same result. *)
From Verif Require Import RoadsFacts Roads2Facts Roads3Facts Roads4Facts.
From Verif Require Import Larry Index Align Missing Ops Numeric Farray PropsLarry PropsOps PropsAlign PropsNumeric PropsIndex SpecFacts SpecNum SpecFarray LarryMove.

(** An element by its labels, by its positions and with lix. *)
Theorem C101_get : forall y zs ls, valid y -> positions_of y zs ls ->
  exists v, larry_get y ls = Ok v /\ larry_getitem y (XTuple (IInt <$> zs)) = Ok (GVal v).
Proof. exact get_road. Qed.
Theorem C101_lix_get : forall y ls v, valid y -> larry_get y ls = Ok v ->
  lix_get y (LxTuple ((fun x => LLabels [x]) <$> ls)) = Ok (GVal v).
Proof. exact lix_get_road. Qed.
Theorem C101_set : forall y zs ls v, valid y -> positions_of y zs ls ->
  larry_setitem y (XTuple (IInt <$> zs)) (SVal v) = larry_set y ls v \/
  exists e e', larry_setitem y (XTuple (IInt <$> zs)) (SVal v) = Err e /\ larry_set y ls v = Err e'.
Proof. exact set_road. Qed.
Theorem C101_fill : forall y v z, valid y -> larry_fill y v = Ok z -> larry_setitem y (XSlice slice_all) (SVal v) = Ok z.
Proof. exact fill_road. Qed.
(** [take], [keep_label], [flipaxis] and [pull] can be written with an index,
    on any axis. *)
Theorem C101_take : forall y zs a ax z, valid y -> axis_is y a ax -> larry_take y zs a = Ok z ->
  larry_getitem y (at_axis ax (IList zs)) = Ok (GLar z).
Proof. exact take_road. Qed.
Theorem C101_keep_label : forall y op a ax l bs z, valid y -> axis_is y a ax -> llabel y !! ax = Some l ->
  Forall2 (fun x (b : bool) => b = true <-> op_holds op x) l bs -> (exists x, x ∈ l /\ op_holds op x) ->
  keep_label y op (Some a) = Ok z -> larry_getitem y (at_axis ax (IBools bs)) = Ok (GLar z).
Proof. exact keep_road. Qed.
Theorem C101_flipaxis : forall y a ax z, valid y -> axis_is y a ax -> flipaxis y (Some a) = Ok z ->
  larry_getitem y (at_axis ax (ISlice (Slice None None (Some (-1)%Z)))) = Ok (GLar z).
Proof. exact flip_road. Qed.
Theorem C101_pull : forall y x a ax l i z, valid y -> axis_is y a ax -> llabel y !! ax = Some l -> py_get l i = Some x ->
  pull y x (Some a) = Ok (OLar z) -> larry_getitem y (at_axis ax (IInt i)) = Ok (GLar z).
Proof. exact pull_road. Qed.
Theorem C101_lix_pull : forall y x z, valid y -> ~ 0 ∈ lshape y -> pull y x (Some 0%Z) = Ok (OLar z) ->
  lix_get y (LxLabels [x]) = Ok (GLar z).
Proof. exact lix_pull_road. Qed.
(** If one axis has length one, squeezing is pulling its label. *)
Theorem C101_squeeze : forall y a ax x, valid y -> 1 < lndim y -> axis_is y a ax -> llabel y !! ax = Some [x] ->
  (forall i l, llabel y !! i = Some l -> i <> ax -> length l <> 1) -> pull y x (Some a) = Ok (OLar (squeeze y)).
Proof. exact squeeze_road. Qed.
(** [take], [keep_label], [flipaxis] and [sortaxis] can be written with
    [morph]: the labels decide. *)
Theorem C101_take_morph : forall y zs a z l, valid y -> zs <> [] -> larry_take y zs a = Ok z -> axis_label_is z a l -> morph y l a = Ok z.
Proof. exact take_morph_road. Qed.
Theorem C101_keep_label_morph : forall y op a z l, valid y -> keep_label y op (Some a) = Ok z -> z <> empty_larry ->
  axis_label_is z a l -> morph y l a = Ok z.
Proof. exact keep_morph_road. Qed.
Theorem C101_flipaxis_morph : forall y a z l, valid y -> flipaxis y (Some a) = Ok z -> axis_label_is z a l -> morph y l a = Ok z.
Proof. exact flip_morph_road. Qed.
Theorem C101_sortaxis_morph : forall y a reverse z l, valid y -> sortaxis y (Some a) reverse = Ok z -> axis_label_is z a l -> morph y l a = Ok z.
Proof. exact sort_road. Qed.
(** A left join leaves the left larry alone and is [morph_like] for the right
    one; likewise a right join. *)
Theorem C101_align_left : forall y1 y2 cast z1 z2, valid y1 -> valid y2 -> missing_dtype (ldtype y2) = ldtype y2 ->
  align y1 y2 (JOne JLeft) cast = Ok (z1, z2) -> z1 = y1 /\ morph_like y2 y1 = Ok z2.
Proof. exact left_road. Qed.
Theorem C101_align_right : forall y1 y2 cast z1 z2, valid y1 -> valid y2 -> missing_dtype (ldtype y1) = ldtype y1 ->
  align y1 y2 (JOne JRight) cast = Ok (z1, z2) -> z2 = y2 /\ morph_like y1 y2 = Ok z1.
Proof. exact right_road. Qed.
(** The transpose of a 2d larry. *)
Theorem C101_transpose : forall y, valid y -> lndim y = 2 -> swapaxes y 0 1 = larry_T y.
Proof. exact T_road. Qed.
(** Replacing NaNs is setting the cells for which isnan holds. *)
Theorem C101_nan_replace : forall y v z, valid y -> ldtype y = DFloat -> nan_replace y v = Ok z ->
  (m ← larry_isnan y; larry_setmask y m v) = Ok z.
Proof. exact nan_road. Qed.
(** Subtracting the mean or median of all elements. *)
Theorem C101_demean : forall y mu z, valid y -> numeric_larry y -> larry_mean y None = Ok (OVal (VFloat mu)) ->
  larry_arith ASub y (OpScalar (VFloat mu)) = Ok z -> larry_demean y None = Ok z.
Proof. exact demean_road. Qed.
Theorem C101_demedian : forall y mu z, valid y -> numeric_larry y -> larry_median y None = Ok (OVal (VFloat mu)) ->
  larry_arith ASub y (OpScalar (VFloat mu)) = Ok z -> larry_demedian y None = Ok z.
Proof. exact demedian_road. Qed.
(** Any is not all not; the greatest is the least of the negated numbers. *)
Theorem C101_any : forall y n axis o, valid y -> nonempty y -> larry_invert y = Ok n -> larry_any y axis = Ok o ->
  exists o', larry_all n axis = Ok o' /\ related_out opposite_bool o o'.
Proof. exact any_road. Qed.
Theorem C101_max : forall y n axis o, valid y -> nonempty y -> numeric_larry y -> larry_neg y = Ok n -> larry_max y axis = Ok o ->
  exists o', larry_min n axis = Ok o' /\ related_out opposite_num o o'.
Proof. exact max_road. Qed.

(** The results of both roads are compared; neither is an error. *)
Definition agree {A B} (f : A -> B) (r : res A) (r' : res B) : Prop :=
  match r, r' with Ok a, Ok b => f a = b | _, _ => False end.
Definition lar (o : out) : gres := match o with OLar z => GLar z | OVal v => GVal v end.
Example C101_index_example :
  agree GLar (larry_take exc [2; -3]%Z 2) (larry_getitem exc (at_axis 2 (IList [2; -3]%Z))) /\
  agree GLar (flipaxis exc (Some (-2)%Z)) (larry_getitem exc (at_axis 1 (ISlice (Slice None None (Some (-1)%Z))))) /\
  agree lar (pull exc (LInt 9) (Some 2%Z)) (larry_getitem exc (at_axis 2 (IInt (-2)%Z))) /\
  agree lar (pull exc (LStr "b") (Some 0%Z)) (lix_get exc (LxLabels [LStr "b"])) /\
  agree GLar (keep_label exc (KGe (LInt 7)) (Some 2%Z)) (larry_getitem exc (at_axis 2 (IBools [true; true; false]))) /\
  larry_take exc [2; -3]%Z 2 <> Ok exc /\ at_axis 0 (IInt 3) = XInt 3 /\
  at_axis 1 (IInt 3) = XTuple [ISlice slice_all; IInt 3].
Proof. split_and!; by vm_compute. Qed.
Example C101_get_example :
  let ls := [LStr "b"; LStr "x"; LInt 9] in
  positions_of exc [-1; 0; 1]%Z ls /\ larry_get exc ls = Ok (VInt 8) /\
  larry_getitem exc (XTuple (IInt <$> [-1; 0; 1]%Z)) = Ok (GVal (VInt 8)) /\
  lix_get exc (LxTuple ((fun x => LLabels [x]) <$> ls)) = Ok (GVal (VInt 8)) /\
  agree id (larry_set exc ls (VInt 0)) (larry_setitem exc (XTuple (IInt <$> [-1; 0; 1]%Z)) (SVal (VInt 0))) /\
  agree id (larry_fill exc (VInt 3)) (larry_setitem exc (XSlice slice_all) (SVal (VInt 3))).
Proof. cbv zeta. split; [by repeat constructor|]. split_and!; by vm_compute. Qed.
Example C101_morph_example :
  agree id (larry_take exc [2; 0]%Z 2) (morph exc [LInt 5; LInt 7] 2) /\
  agree id (keep_label exc (KGe (LInt 7)) (Some 2%Z)) (morph exc [LInt 7; LInt 9] 2) /\
  agree id (flipaxis exc (Some 2%Z)) (morph exc [LInt 5; LInt 9; LInt 7] 2) /\
  agree id (sortaxis exc (Some 2%Z) false) (morph exc [LInt 5; LInt 7; LInt 9] 2) /\
  agree id (swapaxes ex2 0 1) (larry_T ex2).
Proof. split_and!; by vm_compute. Qed.
Example C101_align_example :
  let y1 := Larry (Nda DFloat (Arr [2] [vf 1; vf 2])) [[LInt 7; LInt 8]] in
  let y2 := Larry (Nda DFloat (Arr [3] [vf 3; vf 4; vf 5])) [[LInt 9; LInt 8; LInt 6]] in
  align y1 y2 (JOne JLeft) true = Ok (y1, Larry (Nda DFloat (Arr [2] [VFloat NaN; vf 4])) [[LInt 7; LInt 8]]) /\
  morph_like y2 y1 = Ok (Larry (Nda DFloat (Arr [2] [VFloat NaN; vf 4])) [[LInt 7; LInt 8]]) /\
  align y1 y2 (JOne JRight) true = Ok (Larry (Nda DFloat (Arr [3] [VFloat NaN; vf 2; VFloat NaN])) [[LInt 9; LInt 8; LInt 6]], y2) /\
  morph_like y1 y2 = Ok (Larry (Nda DFloat (Arr [3] [VFloat NaN; vf 2; VFloat NaN])) [[LInt 9; LInt 8; LInt 6]]).
Proof. cbv zeta. split_and!; by vm_compute. Qed.
Example C101_squeeze_example :
  let y := Larry (Nda DInt (Arr [2; 1] [VInt 1; VInt 2])) [[LInt 7; LInt 8]; [LStr "a"]] in
  pull y (LStr "a") (Some 1%Z) = Ok (OLar (squeeze y)) /\ squeeze y = Larry (Nda DInt (Arr [2] [VInt 1; VInt 2])) [[LInt 7; LInt 8]].
Proof. cbv zeta. split_and!; by vm_compute. Qed.
Example C101_nan_example :
  nan_replace exm (vf 5) <> Ok exm /\ agree id (nan_replace exm (vf 5)) (m ← larry_isnan exm; larry_setmask exm m (vf 5)).
Proof. split_and!; by vm_compute. Qed.
Example C101_mean_example :
  let y := Larry (Nda DFloat (Arr [3] [vf 1; VFloat NaN; vf 5])) [[LInt 7; LInt 8; LInt 9]] in
  let z := Larry (Nda DFloat (Arr [3] [vf (-2); VFloat NaN; vf 2])) [[LInt 7; LInt 8; LInt 9]] in
  larry_mean y None = Ok (OVal (vf 3)) /\ larry_arith ASub y (OpScalar (vf 3)) = Ok z /\ larry_demean y None = Ok z /\
  larry_median y None = Ok (OVal (vf 3)) /\ larry_demedian y None = Ok z.
Proof. cbv zeta. by_compute. Qed.
Example C101_opposite_example :
  (n ← larry_invert exb; larry_all n None) = Ok (OVal (VBool false)) /\ larry_any exb None = Ok (OVal (VBool true)) /\
  larry_max ex2 (Some 0%Z) = Ok (OLar (Larry (Nda DInt (Arr [3] [VInt 4; VInt 5; VInt 6])) [[LInt 7; LInt 9; LInt 5]])) /\
  (n ← larry_neg ex2; larry_min n (Some 0%Z)) = Ok (OLar (Larry (Nda DInt (Arr [3] [VInt (-4); VInt (-5); VInt (-6)])) [[LInt 7; LInt 9; LInt 5]])).
Proof. split_and!; by vm_compute. Qed.

Print Assumptions C101_get.
Print Assumptions C101_lix_get.
Print Assumptions C101_set.
Print Assumptions C101_fill.
Print Assumptions C101_take.
Print Assumptions C101_keep_label.
Print Assumptions C101_flipaxis.
Print Assumptions C101_pull.
Print Assumptions C101_lix_pull.
Print Assumptions C101_squeeze.
Print Assumptions C101_take_morph.
Print Assumptions C101_keep_label_morph.
Print Assumptions C101_flipaxis_morph.
Print Assumptions C101_sortaxis_morph.
Print Assumptions C101_align_left.
Print Assumptions C101_align_right.
Print Assumptions C101_transpose.
Print Assumptions C101_nan_replace.
Print Assumptions C101_demean.
Print Assumptions C101_demedian.
Print Assumptions C101_any.
Print Assumptions C101_max.
