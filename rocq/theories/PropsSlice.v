(** C103: positions and slices are those of Python. *)
From Verif Require Import Larry Index PropsLarry PropsOps PropsIndex SpecFacts SpecRoads.
From Verif Require Import SliceFacts Slice2Facts.

(** Every slice but one with step 0 takes some positions. *)
Theorem C103_total : forall s n, s_step s <> Some 0%Z -> exists ps, slice_takes s n ps.
Proof. exact slice_total. Qed.
(** An axis, any of them, indexed by a slice. *)
Theorem C103_slice : forall y ax l s ps, valid y -> llabel y !! ax = Some l -> slice_takes s (length l) ps ->
  exists z l', larry_getitem y (at_axis ax (ISlice s)) = Ok (GLar z) /\ Forall2 (fun i x => l !! i = Some x) ps l' /\
    valid z /\ ldtype z = ldtype y /\ llabel z = <[ax := l']> (llabel y) /\ forall ls, in_grid (llabel z) ls -> cell z ls = cell y ls.
Proof. exact slice_axis. Qed.
Theorem C103_slice_refused : forall y ax l s, valid y -> llabel y !! ax = Some l -> s_step s = Some 0%Z ->
  exists e, larry_getitem y (at_axis ax (ISlice s)) = Err e.
Proof. exact slice_refused. Qed.
(** An axis indexed by an integer. *)
Theorem C103_int : forall y ax l z i x, valid y -> llabel y !! ax = Some l -> 1 < lndim y -> means (length l) z i -> l !! i = Some x ->
  exists w, larry_getitem y (at_axis ax (IInt z)) = Ok (GLar w) /\
    valid w /\ ldtype w = ldtype y /\ llabel w = delete ax (llabel y) /\
    forall ls, in_grid (llabel w) ls -> cell w ls = cell y (take ax ls ++ x :: drop ax ls).
Proof. exact int_axis. Qed.
Theorem C103_scalar : forall y l z i x, valid y -> llabel y = [l] -> means (length l) z i -> l !! i = Some x ->
  exists v, larry_getitem y (XInt z) = Ok (GVal v) /\ cell y [x] = Some v.
Proof. exact int_scalar. Qed.
Theorem C103_int_refused : forall y ax l z, valid y -> llabel y !! ax = Some l -> (forall i, ~ means (length l) z i) ->
  exists e, larry_getitem y (at_axis ax (IInt z)) = Err e.
Proof. exact int_refused. Qed.
Theorem C103_take : forall y zs a z, valid y -> larry_take y zs a = Ok z ->
  exists ax l is l', axis_is y a ax /\ llabel y !! ax = Some l /\ Forall2 (means (length l)) zs is /\ Forall2 (fun i x => l !! i = Some x) is l' /\
    valid z /\ ldtype z = ldtype y /\ llabel z = <[ax := l']> (llabel y) /\ forall ls, in_grid (llabel z) ls -> cell z ls = cell y ls.
Proof. exact take_positions. Qed.
(** What the indices of the other properties (C10, C63, C88) select. *)
Theorem C103_selects_int : forall l z x, selects l (IInt z) (At x) <-> exists i, means (length l) z i /\ l !! i = Some x.
Proof. exact selects_int. Qed.
Theorem C103_selects_slice : forall l s l', selects l (ISlice s) (Among l') <->
  exists ps, slice_takes s (length l) ps /\ Forall2 (fun i x => l !! i = Some x) ps l'.
Proof. exact selects_slice. Qed.

(** On the axis of three labels 7, 9, 5. *)
Definition columns (g : res gres) : option (list lab) := match g with Ok (GLar z) => llabel z !! 1 | _ => None end.
Example C103_ex :
  columns (larry_getitem ex2 (at_axis 1 (ISlice (Slice None None (Some (-1)%Z))))) = Some [LInt 5; LInt 9; LInt 7] /\
  columns (larry_getitem ex2 (at_axis 1 (ISlice (Slice (Some (-2)%Z) None None)))) = Some [LInt 9; LInt 5] /\
  columns (larry_getitem ex2 (at_axis 1 (ISlice (Slice (Some 7%Z) (Some (-4)%Z) (Some (-2)%Z))))) = Some [LInt 5; LInt 7] /\
  columns (larry_getitem ex2 (at_axis 1 (ISlice (Slice None (Some (-1)%Z) (Some 2%Z))))) = Some [LInt 7] /\
  columns (larry_getitem ex2 (at_axis 1 (ISlice (Slice (Some 2%Z) (Some 1%Z) None)))) = Some [] /\
  larry_getitem ex2 (at_axis 1 (ISlice (Slice None None (Some 0%Z)))) = Err ValueError /\
  larry_getitem ex2 (at_axis 1 (IInt 3)) = Err IndexError /\
  larry_getitem ex2 (at_axis 1 (IInt (-1))) = larry_getitem ex2 (at_axis 1 (IInt 2)).
Proof. by_compute. Qed.
Example C103_downward_ex : slice_takes (Slice (Some 7%Z) (Some (-4)%Z) (Some (-2)%Z)) 3 [2; 0].
Proof. right. split_and!; [done|repeat constructor|]. intros i. rewrite !elem_of_cons, elem_of_nil. unfold downward, from_end. simpl. split.
  - intros [->|[->|[]]]; split_and!; try lia; [by exists 0%Z|by exists 1%Z].
  - intros (H1 & H2 & [k Hk] & H3). lia.
Qed.

Print Assumptions C103_total.
Print Assumptions C103_slice.
Print Assumptions C103_slice_refused.
Print Assumptions C103_int.
Print Assumptions C103_scalar.
Print Assumptions C103_int_refused.
Print Assumptions C103_take.
Print Assumptions C103_selects_int.
Print Assumptions C103_selects_slice.
