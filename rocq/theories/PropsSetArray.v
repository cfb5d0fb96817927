(** C88: assigning an array. *)
From Verif Require Import PropsLarry PropsAlign PropsOps PropsNumeric PropsIndex.
From Verif Require Import SetArrayFacts.

(** [y[index] = x]: the array is broadcast to the selection, every selected
    cell gets its element, converted to the type of [y]; all other cells, the
    type and the labels stay.  Nothing selected twice. *)
Theorem C88_setitem : forall y ix x z,
  valid y -> Forall not_larry (index_items ix) -> one_list (index_items ix) -> joined (index_items ix) \/ list_first (index_items ix) ->
  larry_setarray y ix x = Ok z ->
  exists ss, selects_all (llabel y) (index_items ix) ss /\ fits (nd_shape x) (length <$> sel_labels ss) /\
    (Forall NoDup (sel_labels ss) -> overwritten y ss (array_value (ldtype y) x (sel_labels ss)) z).
Proof. exact setarray_sound. Qed.
(** It succeeds exactly if the shape of the array broadcasts to that of the
    selection; otherwise ValueError. *)
Theorem C88_setitem_succeeds : forall y ix x ss,
  valid y -> nda_wf x -> Forall not_larry (index_items ix) -> one_list (index_items ix) -> joined (index_items ix) \/ list_first (index_items ix) ->
  selects_all (llabel y) (index_items ix) ss -> length (nd_shape x) <= length (sel_labels ss) -> storable (ldtype y) x ->
  (fits (nd_shape x) (length <$> sel_labels ss) -> exists z, larry_setarray y ix x = Ok z) /\
  (~ fits (nd_shape x) (length <$> sel_labels ss) -> larry_setarray y ix x = Err ValueError).
Proof. exact setarray_complete. Qed.
Theorem C88_too_many_axes : forall y ix x ss k n,
  valid y -> Forall not_larry (index_items ix) -> one_list (index_items ix) -> joined (index_items ix) \/ list_first (index_items ix) ->
  selects_all (llabel y) (index_items ix) ss -> k < length (nd_shape x) - length (sel_labels ss) -> nd_shape x !! k = Some n -> n <> 1 ->
  larry_setarray y ix x = Err ValueError.
Proof. exact setarray_longer. Qed.
(** An index that selects nothing of [y]. *)
Theorem C88_out_of_range : forall y ix x,
  valid y -> Forall not_larry (index_items ix) -> one_list (index_items ix) ->
  Forall (fun it => forall s, it = ISlice s -> s_step s <> Some 0%Z) (index_items ix) ->
  (forall ss, ~ selects_all (llabel y) (index_items ix) ss) -> larry_setarray y ix x = Err IndexError.
Proof. exact setarray_nowhere. Qed.

(** [y[mask] = x] with a bool larry: the k-th true cell of the mask gets the
    k-th element, or the only one. *)
Theorem C88_mask : forall y m x z, valid y -> valid m -> ldtype m = DBool -> larry_setmask_array y m x = Ok z ->
  llabel m = llabel y /\ fits (nd_shape x) [length (marked m)] /\ valid z /\ ldtype z = ldtype y /\ llabel z = llabel y /\
  (forall k ls, marked m !! k = Some ls -> exists idx' u w, broadcast_index (nd_shape x) [k] idx' /\ aget (nd_arr x) idx' = Some u /\
     store (ldtype y) u = Ok w /\ cell z ls = Some w) /\
  (forall ls, cell m ls <> Some (VBool true) -> cell z ls = cell y ls).
Proof. exact setmask_array_sound. Qed.
Theorem C88_mask_succeeds : forall y m x,
  valid y -> valid m -> nda_wf x -> ldtype m = DBool -> llabel m = llabel y -> length (nd_shape x) <= 1 -> storable (ldtype y) x ->
  (fits (nd_shape x) [length (marked m)] -> exists z, larry_setmask_array y m x = Ok z) /\
  (~ fits (nd_shape x) [length (marked m)] -> larry_setmask_array y m x = Err ValueError).
Proof. exact setmask_array_complete. Qed.
Theorem C88_mask_misaligned : forall y m x, llabel y <> llabel m -> larry_setmask_array y m x = Err IndexError.
Proof. exact setmask_array_misaligned. Qed.

(** [y.lix[index] = x]. *)
Theorem C88_lix : forall y ix x z,
  valid y -> ~ 0 ∈ lshape y -> lix_setarray y ix x = Ok z ->
  exists block, lix_block y ix block /\ fits (nd_shape x) (length <$> sel_labels (lix_value_sel ix block)) /\
    (Forall NoDup block -> overwritten y (lix_value_sel ix block) (array_value (ldtype y) x (sel_labels (lix_value_sel ix block))) z).
Proof. exact lix_setarray_sound. Qed.
Theorem C88_lix_succeeds : forall y ix x block,
  valid y -> nda_wf x -> ~ 0 ∈ lshape y -> lix_block y ix block ->
  (match ix with LxTuple _ => Forall (fun l => l <> []) block | _ => True end) ->
  length (nd_shape x) <= length (sel_labels (lix_value_sel ix block)) -> storable (ldtype y) x ->
  (fits (nd_shape x) (length <$> sel_labels (lix_value_sel ix block)) -> exists z, lix_setarray y ix x = Ok z) /\
  (~ fits (nd_shape x) (length <$> sel_labels (lix_value_sel ix block)) -> lix_setarray y ix x = Err ValueError).
Proof. exact lix_setarray_complete. Qed.

(** A row for two rows, a column, a list of columns, a mask, labels; a row that
    is too long. *)
Example C88_example :
  let row := Nda DInt (Arr [3] (VInt <$> [10; 20; 30]%Z)) in
  let mask := Larry (Nda DBool (Arr [2; 3] (VBool <$> [false; true; false; true; true; false]))) (llabel ex2) in
  let ints y := match y with Ok y => Ok (data (larr y)) | Err e => Err e end in
  ints (larry_setarray ex2 (XSlice slice_all) row) = Ok (VInt <$> [10; 20; 30; 10; 20; 30]%Z) /\
  ints (larry_setarray ex2 (XInt (-1)) row) = Ok (VInt <$> [1; 2; 3; 10; 20; 30]%Z) /\
  ints (larry_setarray ex2 (XTuple [ISlice slice_all; IList [2; 0]%Z]) (Nda DInt (Arr [2; 1] (VInt <$> [7; 8]%Z)))) = Ok (VInt <$> [7; 2; 7; 8; 5; 8]%Z) /\
  ints (larry_setarray ex2 (XTuple [ISlice slice_all; IList [2; 0]%Z]) row) = Err ValueError /\
  ints (larry_setarray ex2 (XInt 2) row) = Err IndexError /\
  ints (larry_setmask_array ex2 mask row) = Ok (VInt <$> [1; 10; 3; 20; 30; 6]%Z) /\
  ints (larry_setmask_array ex2 mask (Nda DInt (Arr [2] (VInt <$> [7; 8]%Z)))) = Err ValueError /\
  ints (lix_setarray ex2 (LxTuple [LLabels [LStr "y"]; LLabels [LInt 5; LInt 7]]) (Nda DInt (Arr [2] (VInt <$> [7; 8]%Z)))) = Ok (VInt <$> [1; 2; 3; 8; 5; 7]%Z).
Proof. cbv zeta. by_compute. Qed.

Print Assumptions C88_setitem.
Print Assumptions C88_setitem_succeeds.
Print Assumptions C88_too_many_axes.
Print Assumptions C88_out_of_range.
Print Assumptions C88_mask.
Print Assumptions C88_mask_succeeds.
Print Assumptions C88_mask_misaligned.
Print Assumptions C88_lix.
Print Assumptions C88_lix_succeeds.
