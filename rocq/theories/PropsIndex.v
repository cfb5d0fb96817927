(** Properties C10, C12 and C63: indexing by position and by label
    (la/deflarry.py). *)
From Verif Require Import IndexLix IndexSep.
From Verif Require Import PropsLarry PropsAlign PropsOps PropsNumeric.

(** A 3d larry. *)
Definition exc : larry :=
  Larry (Nda DInt (Arr [2; 2; 3] (VInt <$> [1; 2; 3; 4; 5; 6; 7; 8; 9; 10; 11; 12]%Z)))
    [[LStr "a"; LStr "b"]; [LStr "x"; LStr "y"]; [LInt 7; LInt 9; LInt 5]].
Example exc_valid : valid exc.
Proof. solve_valid. Qed.

(** C10: every element of [y[index]] carries the labels it had in [y].  Two
    restrictions: integers and lists are not separated by a slice, unless no
    slice precedes a list; a tuple of integers names every axis. *)
Theorem C10_getitem_partial : forall y ix g,
  valid y -> Forall item_ok (index_items ix) -> joined (index_items ix) \/ list_first (index_items ix) ->
  complete y ix -> larry_getitem y ix = Ok g ->
  exists ss, selects_all (llabel y) (index_items ix) ss /\ picked y ss g.
Proof. exact getitem_sound. Qed.
Theorem C10_getitem_succeeds : forall y ix ss,
  valid y -> Forall item_ok (index_items ix) -> joined (index_items ix) \/ list_first (index_items ix) ->
  one_list (index_items ix) -> complete y ix ->
  selects_all (llabel y) (index_items ix) ss -> Forall NoDup (sel_labels ss) ->
  exists g, larry_getitem y ix = Ok g /\ picked y ss g.
Proof. exact getitem_complete. Qed.
(** y[int, slice, list] can be transposed against its labels. *)
Theorem C10_separated_refuted :
  exists y items z, valid y /\ one_list items /\ larry_getitem y (XTuple items) = Ok (GLar z) /\
    ~ exists ss, selects_all (llabel y) items ss /\ picked y ss (GLar z).
Proof. exact getitem_separated_refuted. Qed.
(** What the result is then: the labels are in order, the axis of the list
    comes first in the data.  Every other such index is refused. *)
Theorem C10_separated : forall y items g,
  valid y -> Forall item_ok items -> separated items -> larry_getitem y (XTuple items) = Ok g ->
  exists ss p z, g = GLar z /\ selects_all (llabel y) items ss /\ list_after items p /\ turned y ss p z.
Proof. exact getitem_separated_sound. Qed.
Theorem C10_separated_cases : forall y items ss p,
  valid y -> Forall item_ok items -> separated items -> one_list items ->
  selects_all (llabel y) items ss -> Forall NoDup (sel_labels ss) -> list_after items p ->
  ((exists m, Forall (fun l => length l = m) (take (S p) (sel_labels ss))) ->
    exists z, larry_getitem y (XTuple items) = Ok (GLar z) /\ turned y ss p z) /\
  (~ (exists m, Forall (fun l => length l = m) (take (S p) (sel_labels ss))) ->
    larry_getitem y (XTuple items) = Err ValueError).
Proof. exact getitem_separated_cases. Qed.
(** A short tuple of integers loses the labels. *)
Theorem C10_short_tuple_refuted :
  exists y items a, valid y /\ Forall is_int items /\ larry_getitem y (XTuple items) = Ok (GArr a).
Proof. exact getitem_short_refuted. Qed.
(** It always does; the array without labels holds the right elements. *)
Theorem C10_short_tuple : forall y items g,
  valid y -> Forall is_int items -> length items < length (llabel y) -> larry_getitem y (XTuple items) = Ok g ->
  exists ss a, selects_all (llabel y) items ss /\ g = GArr a /\ restricted y ss (Larry a (sel_labels ss)).
Proof. exact getitem_short_sound. Qed.
Theorem C10_short_tuple_succeeds : forall y items ss,
  valid y -> Forall is_int items -> length items < length (llabel y) -> selects_all (llabel y) items ss ->
  exists a, larry_getitem y (XTuple items) = Ok (GArr a) /\ restricted y ss (Larry a (sel_labels ss)).
Proof. exact getitem_short. Qed.
Example C10_separated_example :
  larry_getitem exc (XTuple [IInt 1; ISlice slice_all; IList [2; 0]%Z]) =
    Ok (GLar (Larry (Nda DInt (Arr [2; 2] (VInt <$> [9; 12; 7; 10]%Z))) [[LStr "x"; LStr "y"]; [LInt 5; LInt 7]])) /\
  larry_getitem exc (XTuple [IInt 1; ISlice slice_all; IList [2; 0; 1]%Z]) = Err ValueError /\
  larry_getitem exc (XTuple [IInt 1; IInt 0]) = Ok (GArr (Nda DInt (Arr [3] (VInt <$> [7; 8; 9]%Z)))).
Proof. by_compute. Qed.
Example C10_example :
  larry_getitem exc (XTuple [ISlice slice_all; IInt 1; IList [2; 0]%Z]) =
    Ok (GLar (Larry (Nda DInt (Arr [2; 2] (VInt <$> [6; 4; 12; 10]%Z))) [[LStr "a"; LStr "b"]; [LInt 5; LInt 7]])) /\
  larry_getitem exc (XTuple [IInt (-1); ISlice (Slice None None (Some (-1)%Z)); IInt 0]) =
    Ok (GLar (Larry (Nda DInt (Arr [2] (VInt <$> [10; 7]%Z))) [[LStr "y"; LStr "x"]])) /\
  larry_getitem exc (XTuple [IInt 0; IInt 1; IInt 2]) = Ok (GVal (VInt 6)) /\
  larry_getitem exm (XBools [false; true]) =
    Ok (GLar (Larry (Nda DFloat (Arr [1; 3] [vf 4; vf 5; vf (-6)])) [[LStr "b"]; [LInt 1; LInt 2; LInt 3]])) /\
  larry_getitem exm (XLarry (Larry (Nda DBool (Arr [2] [VBool true; VBool false])) [[LStr "a"; LStr "b"]])) =
    Ok (GLar (Larry (Nda DFloat (Arr [1; 3] [vf 1; VFloat NaN; vf 3])) [[LStr "a"]; [LInt 1; LInt 2; LInt 3]])) /\
  larry_getitem exm (XList [1; 1]%Z) = Err IndexError /\
  larry_getitem exm (XTuple [ISlice slice_all; IList [0; 0]%Z]) = Err ValueError /\
  larry_getitem exm (XInt 2) = Err IndexError.
Proof. by_compute. Qed.

(** C12: lix reads and writes the block of the labels it names. *)
Theorem C12_lix_get : forall y ix g,
  valid y -> ~ 0 ∈ lshape y -> lix_get y ix = Ok g ->
  exists block, lix_block y ix block /\ picked y (lix_sel ix block) g.
Proof. exact lix_get_sound. Qed.
(** It succeeds if no label is named twice and, for a tuple, no axis is left
    without labels. *)
Theorem C12_lix_get_partial : forall y ix block,
  valid y -> ~ 0 ∈ lshape y -> lix_block y ix block ->
  Forall NoDup block -> (match ix with LxTuple _ => Forall (fun l => l <> []) block | _ => True end) ->
  exists g, lix_get y ix = Ok g /\ picked y (lix_sel ix block) g.
Proof. exact lix_get_complete. Qed.
(** Nothing else can be read. *)
Theorem C12_lix_get_only : forall y ix block g,
  valid y -> ~ 0 ∈ lshape y -> lix_block y ix block -> lix_get y ix = Ok g ->
  Forall NoDup block /\ (match ix with LxTuple _ => Forall (fun l => l <> []) block | _ => True end).
Proof. exact lix_get_only. Qed.
(** A larry without elements: lix gives the whole of a 1d larry and refuses
    every other, whatever the index. *)
Theorem C12_lix_get_nothing : forall y ix,
  0 ∈ lshape y -> (lndim y = 1 -> lix_get y ix = Ok (GLar y)) /\ (lndim y <> 1 -> lix_get y ix = Err ValueError).
Proof. exact lix_get_nothing. Qed.
Theorem C12_lix_get_empty_refuted :
  exists y items block, valid y /\ ~ 0 ∈ lshape y /\ lix_all (llabel y) items block /\ forall g, lix_get y (LxTuple items) <> Ok g.
Proof. exact lix_empty_refuted. Qed.
Theorem C12_lix_set : forall y ix v z,
  valid y -> ~ 0 ∈ lshape y -> lix_set y ix (SVal v) = Ok z ->
  exists block u, lix_block y ix block /\ store (ldtype y) v = Ok u /\
  valid z /\ ldtype z = ldtype y /\ llabel z = llabel y /\
  (forall ls, in_grid block ls -> cell z ls = Some u) /\
  (forall ls, ~ in_grid block ls -> cell z ls = cell y ls).
Proof. exact lix_set_val_sound. Qed.
Theorem C12_lix_set_succeeds : forall y ix v u block,
  valid y -> ~ 0 ∈ lshape y -> lix_block y ix block ->
  (match ix with LxTuple _ => Forall (fun l => l <> []) block | _ => True end) -> store (ldtype y) v = Ok u ->
  exists z, lix_set y ix (SVal v) = Ok z.
Proof. exact lix_set_val_complete. Qed.
Theorem C12_lix_set_larry : forall y ix z y',
  valid y -> valid z -> ~ 0 ∈ lshape y -> lix_set y ix (SLarry z) = Ok y' ->
  exists block, lix_block y ix block /\ llabel z = sel_labels (lix_value_sel ix block) /\
    overwritten y (lix_value_sel ix block) (fun ls w => exists u, cell z ls = Some u /\ store (ldtype y) u = Ok w) y'.
Proof. exact lix_set_larry_sound. Qed.
Theorem C12_lix_set_larry_succeeds : forall y ix z block,
  valid y -> valid z -> ~ 0 ∈ lshape y -> lix_block y ix block ->
  (match ix with LxTuple _ => Forall (fun l => l <> []) block | _ => True end) -> llabel z = sel_labels (lix_value_sel ix block) ->
  (forall ls u, cell z ls = Some u -> exists w, store (ldtype y) u = Ok w) ->
  exists y', lix_set y ix (SLarry z) = Ok y'.
Proof. exact lix_set_larry_complete. Qed.
(** As for reading, a tuple must leave no axis without labels: nothing can then
    be assigned, not even nothing. *)
Theorem C12_lix_set_empty : forall y items block value,
  valid y -> lix_all (llabel y) items block -> [] ∈ block -> forall z, lix_set y (LxTuple items) value <> Ok z.
Proof. exact lix_set_empty. Qed.
Example C12_empty_example :
  lix_set exm (LxTuple [LLabels [LStr "a"]; LSl (LSlice (Some (EIdx 1)) (Some (EIdx 1)) None)]) (SVal (VInt 0)) = Err IndexError /\
  exists block, lix_all (llabel exm) [LLabels [LStr "a"]; LSl (LSlice (Some (EIdx 1)) (Some (EIdx 1)) None)] block /\ [] ∈ block.
Proof.
  split; [by vm_compute|]. exists [[LStr "a"]; []]. split; [|right; left]. split; [simpl; lia|].
  constructor; [|constructor; [|constructor]].
  - split; [done|]. intros x Hx. exact Hx || (apply elem_of_list_singleton in Hx as ->; left).
  - exists (Some 1%Z), (Some 1%Z). done.
Qed.
Example C12_example :
  lix_get exc (LxTuple [LLabels [LStr "b"]; LSl (LSlice (Some (ELab [LStr "x"])) None None); LLabels [LInt 5; LInt 7]]) =
    Ok (GLar (Larry (Nda DInt (Arr [2; 2] (VInt <$> [9; 7; 12; 10]%Z))) [[LStr "x"; LStr "y"]; [LInt 5; LInt 7]])) /\
  lix_get exc (LxTuple [LLabels [LStr "b"]; LInt1 (-1); LSl (LSlice (Some (EIdx 1)) (Some (ELab [LInt 5])) None)]) = Ok (GVal (VInt 11)) /\
  lix_get exm (LxLabels [LStr "b"]) =
    Ok (GLar (Larry (Nda DFloat (Arr [3] [vf 4; vf 5; vf (-6)])) [[LInt 1; LInt 2; LInt 3]])) /\
  lix_get exm (LxSlice (LSlice None (Some (ELab [LStr "b"])) None)) =
    Ok (GLar (Larry (Nda DFloat (Arr [1; 3] [vf 1; VFloat NaN; vf 3])) [[LStr "a"]; [LInt 1; LInt 2; LInt 3]])) /\
  lix_get exm (LxLabels [LStr "c"]) = Err ValueError /\
  lix_set exm (LxTuple [LSl (LSlice None None None); LLabels [LInt 3; LInt 1]]) (SVal (VInt 0)) =
    Ok (Larry (Nda DFloat (Arr [2; 3] [vf 0; VFloat NaN; vf 0; vf 0; vf 5; vf 0])) (llabel exm)) /\
  lix_set exm (LxTuple [LLabels [LStr "a"]; LLabels [LInt 3; LInt 1]])
    (SLarry (Larry (Nda DInt (Arr [1; 2] [VInt 8; VInt 9])) [[LStr "a"]; [LInt 3; LInt 1]])) =
    Ok (Larry (Nda DFloat (Arr [2; 3] [vf 9; VFloat NaN; vf 8; vf 4; vf 5; vf (-6)])) (llabel exm)) /\
  lix_set exm (LxTuple [LLabels [LStr "a"]; LLabels [LInt 3; LInt 1]])
    (SLarry (Larry (Nda DInt (Arr [1; 2] [VInt 8; VInt 9])) [[LStr "a"]; [LInt 1; LInt 3]])) = Err IndexError.
Proof. by_compute. Qed.

(** C63: assignment to an index. *)
Theorem C63_setitem : forall y ix v z,
  valid y -> Forall not_larry (index_items ix) -> one_list (index_items ix) ->
  larry_setitem y ix (SVal v) = Ok z ->
  exists ss u, selects_all (llabel y) (index_items ix) ss /\ store (ldtype y) v = Ok u /\ overwritten y ss (fun _ w => w = u) z.
Proof. exact setitem_val_sound. Qed.
Theorem C63_setitem_succeeds : forall y ix v u ss,
  valid y -> Forall not_larry (index_items ix) -> one_list (index_items ix) ->
  selects_all (llabel y) (index_items ix) ss -> store (ldtype y) v = Ok u ->
  exists z, larry_setitem y ix (SVal v) = Ok z.
Proof. exact setitem_val_complete. Qed.
Theorem C63_setitem_larry : forall y ix z y',
  valid y -> valid z -> Forall not_larry (index_items ix) -> one_list (index_items ix) ->
  joined (index_items ix) \/ list_first (index_items ix) -> complete y ix ->
  larry_setitem y ix (SLarry z) = Ok y' ->
  exists ss, selects_all (llabel y) (index_items ix) ss /\ llabel z = sel_labels ss /\
    overwritten y ss (fun ls w => exists u, cell z ls = Some u /\ store (ldtype y) u = Ok w) y'.
Proof. exact setitem_larry_sound. Qed.
Theorem C63_setitem_larry_succeeds : forall y ix z ss,
  valid y -> valid z -> Forall not_larry (index_items ix) -> one_list (index_items ix) ->
  joined (index_items ix) \/ list_first (index_items ix) -> complete y ix ->
  selects_all (llabel y) (index_items ix) ss -> llabel z = sel_labels ss ->
  (forall ls u, cell z ls = Some u -> exists w, store (ldtype y) u = Ok w) ->
  exists y', larry_setitem y ix (SLarry z) = Ok y'.
Proof. exact setitem_larry_complete. Qed.
Theorem C63_setmask : forall y m v z,
  valid y -> valid m -> ldtype m = DBool -> larry_setmask y m v = Ok z ->
  llabel m = llabel y /\ exists u, store (ldtype y) v = Ok u /\
  valid z /\ ldtype z = ldtype y /\ llabel z = llabel y /\
  (forall ls, cell m ls = Some (VBool true) -> cell z ls = Some u) /\
  (forall ls, cell m ls <> Some (VBool true) -> cell z ls = cell y ls).
Proof. exact setmask_spec. Qed.
Theorem C63_setmask_succeeds : forall y m v u,
  llabel m = llabel y -> ldtype m = DBool -> store (ldtype y) v = Ok u -> exists z, larry_setmask y m v = Ok z.
Proof. exact setmask_complete. Qed.
Example C63_example :
  larry_setitem exm (XTuple [ISlice slice_all; IInt 1]) (SVal (VInt 0)) =
    Ok (Larry (Nda DFloat (Arr [2; 3] [vf 1; vf 0; vf 3; vf 4; vf 0; vf (-6)])) (llabel exm)) /\
  larry_setitem exm (XInt (-1)) (SLarry (Larry (Nda DInt (Arr [3] (VInt <$> [7; 8; 9]%Z))) [[LInt 1; LInt 2; LInt 3]])) =
    Ok (Larry (Nda DFloat (Arr [2; 3] [vf 1; VFloat NaN; vf 3; vf 7; vf 8; vf 9])) (llabel exm)) /\
  larry_setitem exm (XInt (-1)) (SLarry (Larry (Nda DInt (Arr [3] (VInt <$> [7; 8; 9]%Z))) [[LInt 1; LInt 3; LInt 2]])) = Err IndexError /\
  larry_setmask exi (Larry (Nda DBool (Arr [2; 2] (VBool <$> [true; false; false; true]))) (llabel exi)) (VInt 0) =
    Ok (Larry (Nda DInt (Arr [2; 2] (VInt <$> [0; 2; 3; 0]%Z))) (llabel exi)).
Proof. by_compute. Qed.

Print Assumptions C10_getitem_partial.
Print Assumptions C10_getitem_succeeds.
Print Assumptions C10_separated_refuted.
Print Assumptions C10_separated.
Print Assumptions C10_separated_cases.
Print Assumptions C10_short_tuple_refuted.
Print Assumptions C10_short_tuple.
Print Assumptions C10_short_tuple_succeeds.
Print Assumptions C12_lix_get.
Print Assumptions C12_lix_get_partial.
Print Assumptions C12_lix_get_only.
Print Assumptions C12_lix_get_nothing.
Print Assumptions C12_lix_get_empty_refuted.
Print Assumptions C12_lix_set.
Print Assumptions C12_lix_set_succeeds.
Print Assumptions C12_lix_set_larry.
Print Assumptions C12_lix_set_larry_succeeds.
Print Assumptions C12_lix_set_empty.
Print Assumptions C63_setitem.
Print Assumptions C63_setitem_succeeds.
Print Assumptions C63_setitem_larry.
Print Assumptions C63_setitem_larry_succeeds.
Print Assumptions C63_setmask.
Print Assumptions C63_setmask_succeeds.
