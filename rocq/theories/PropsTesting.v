(** C77: the checks for copies and views (la/util/testing.py). *)
From Verif Require Import PropsLarry PropsAlign PropsOps PropsNumeric PropsSession.
From Verif Require Import TestingFacts PropsHeap.

(** A pass means that no element of the data is shared, and no list of labels
    of the same axis.  Missing: lists of different axes, see below. *)
Theorem C77_iscopy_partial : forall h p q, assert_iscopy h p q = Some [] ->
  (forall b i, part_of h p (PCell b i) -> ~ part_of h q (PCell b i)) /\
  forall o1 o2 is1 is2 ax i, h_objs h !! p = Some o1 -> h_objs h !! q = Some o2 ->
    h_outers h !! o_label o1 = Some is1 -> h_outers h !! o_label o2 = Some is2 ->
    is1 !! ax = Some i -> is2 !! ax <> Some i.
Proof. exact iscopy_sound. Qed.
(** Larrys that share nothing pass. *)
Theorem C77_apart : forall h p q y z, read_larry h p = Some y -> read_larry h q = Some z -> apart h p q ->
  assert_iscopy h p q = Some [].
Proof. exact apart_iscopy. Qed.
(** The results of all calls that do not return views pass, against every
    larry that was there. *)
Theorem C77_calls : forall h ps c h' rs q z p y, in_place c = None -> may_write c = false -> may_share c = false ->
  Forall (fun p => exists y, read_larry h p = Some y /\ valid y) ps ->
  hexec ps c h = (h', Ok rs) -> HLarry q ∈ rs -> read_larry h' q = Some z -> read_larry h p = Some y ->
  assert_iscopy h' q p = Some [] /\ assert_iscopy h' p q = Some [].
Proof. exact calls_iscopy. Qed.

(** It does not matter which larry comes first, a view is not a copy, and a
    pass of [assert_isview] means that the same buffer is used and the same
    lists of labels along the axes that both have. *)
Theorem C77_symmetric : forall h p q,
  assert_iscopy h p q = assert_iscopy h q p /\ assert_isview h p q = assert_isview h q p.
Proof. exact (fun h p q => conj (iscopy_sym h p q) (isview_sym h p q)). Qed.
Theorem C77_exclusive : forall h p q, assert_isview h p q = Some [] -> exists cs, assert_iscopy h p q = Some (AboutData :: cs).
Proof. exact view_not_copy. Qed.
Theorem C77_isview_partial : forall h p q, assert_isview h p q = Some [] ->
  (exists b, part_of h p (PBuf b) /\ part_of h q (PBuf b)) /\
  forall o1 o2 is1 is2 ax i j, h_objs h !! p = Some o1 -> h_objs h !! q = Some o2 ->
    h_outers h !! o_label o1 = Some is1 -> h_outers h !! o_label o2 = Some is2 ->
    is1 !! ax = Some i -> is2 !! ax = Some j -> i = j.
Proof. exact isview_sound. Qed.

(** The documentation of [assert_iscopy]: true if there are no shared
    references.  A list of labels can be shared by different axes: picking one
    entry of the first axis and some of the second leaves the list of the last
    axis with the result, where it belongs to another axis. *)
Definition ex3d : larry :=
  Larry (Nda DInt (Arr [2; 2; 2] (VInt <$> [1; 2; 3; 4; 5; 6; 7; 8]%Z)))
    [[LStr "x"; LStr "y"]; [LInt 1; LInt 2]; [LStr "u"; LStr "v"]].
Definition ex_cross : list call := [CGetitem 0 (XTuple [IInt 0; IList [1%Z; 0%Z]])].
Theorem C77_cross_axis_refuted : exists h p q y z i,
  read_larry h p = Some y /\ read_larry h q = Some z /\ valid y /\ valid z /\
  assert_iscopy h q p = Some [] /\ part_of h p (PList i) /\ part_of h q (PList i).
Proof.
  exists (after [ex3d] ex_cross), 0, 1, ex3d,
    (Larry (Nda DInt (Arr [2; 2] (VInt <$> [3; 4; 1; 2]%Z))) [[LInt 2; LInt 1]; [LStr "u"; LStr "v"]]), 2.
  split_and!; [computes|computes|solve_valid|solve_valid|by vm_compute| |].
  - eexists. split; [vm_compute; reflexivity|]. right; right; left. eexists _, 2. split_and!; [vm_compute; reflexivity| |done]. do 2 right. by left.
  - eexists. split; [vm_compute; reflexivity|]. right; right; left. eexists _, 2. split_and!; [vm_compute; reflexivity| |done]. do 1 right. by left.
Qed.
(** Larrys that share no element and no label complain all the same: every
    second column and the columns between. *)
Definition ex_comb : list call :=
  [CGetitem 0 (XTuple [ISlice slice_all; ISlice (Slice None None (Some 2%Z))]);
   CGetitem 0 (XTuple [ISlice slice_all; ISlice (Slice (Some 1%Z) None (Some 2%Z))])].
Theorem C77_no_element_refuted : exists h p q y z,
  read_larry h p = Some y /\ read_larry h q = Some z /\
  (forall x, part_of h p x -> part_of h q x -> exists b, x = PBuf b) /\
  exists cs, assert_iscopy h p q = Some cs /\ AboutData ∈ cs.
Proof.
  exists (after [ex2] ex_comb), 1, 2, (Larry (Nda DInt (Arr [2; 2] (VInt <$> [1; 3; 4; 6]%Z))) [[LStr "x"; LStr "y"]; [LInt 7; LInt 5]]),
    (Larry (Nda DInt (Arr [2; 1] (VInt <$> [2; 5]%Z))) [[LStr "x"; LStr "y"]; [LInt 9]]).
  split_and!; [computes|computes| |eexists; split; [vm_compute; reflexivity|by left]].
  intros x (o1 & H1 & C1) (o2 & H2 & C2). vm_compute in H1, H2. injection H1 as <-. injection H2 as <-.
  destruct C1 as [-> |[-> |[(is1 & i1 & L1 & M1 & ->)|[-> |(i1 & M1 & ->)]]]]; [| | |by eexists|];
    destruct C2 as [E|[E|[(is2 & i2 & L2 & M2 & E)|[E|(i2 & M2 & E)]]]]; try discriminate E; [by vm_compute in E..| |].
  - vm_compute in L1, L2. injection L1 as <-. injection L2 as <-. injection E as <-.
    repeat (apply elem_of_cons in M1 as [-> |M1]; [by repeat (apply elem_of_cons in M2 as [? |M2]; [done|]); apply elem_of_nil in M2|]).
    by apply elem_of_nil in M1.
  - injection E as <-. cbn in M1, M2.
    repeat (apply elem_of_cons in M1 as [-> |M1]; [by repeat (apply elem_of_cons in M2 as [? |M2]; [done|]); apply elem_of_nil in M2|]).
    by apply elem_of_nil in M1.
Qed.
(** The documentation of [assert_isview]: true if there are only references.
    Two columns pulled out of one larry have no element in common and pass. *)
Definition ex_columns : list call := [CPull 0 (LInt 7) (Some 1%Z); CPull 0 (LInt 9) (Some 1%Z)].
Theorem C77_isview_refuted : exists h p q y z,
  read_larry h p = Some y /\ read_larry h q = Some z /\
  (forall b i, part_of h p (PCell b i) -> ~ part_of h q (PCell b i)) /\
  assert_isview h p q = Some [].
Proof.
  exists (after [ex2] ex_columns), 1, 2, (Larry (Nda DInt (Arr [2] (VInt <$> [1; 4]%Z))) [[LStr "x"; LStr "y"]]),
    (Larry (Nda DInt (Arr [2] (VInt <$> [2; 5]%Z))) [[LStr "x"; LStr "y"]]).
  split_and!; [computes|computes| |by vm_compute].
  intros b i (o1 & H1 & C1) (o2 & H2 & C2). vm_compute in H1, H2. injection H1 as <-. injection H2 as <-.
  destruct C1 as [E1|[E1|[(is1 & i1 & L1 & M1 & E1)|[E1|(i1 & M1 & E1)]]]]; try discriminate E1.
  destruct C2 as [E|[E|[(is2 & i2 & L2 & M2 & E)|[E|(i2 & M2 & E)]]]]; try discriminate E.
  injection E1 as -> ->. injection E as <-. cbn in M1, M2.
  repeat (apply elem_of_cons in M1 as [-> |M1]; [by repeat (apply elem_of_cons in M2 as [? |M2]; [done|]); apply elem_of_nil in M2|]).
  by apply elem_of_nil in M1.
Qed.
(** [squeeze] makes references only; its result does not pass, since the axes
    have moved. *)
Definition ex_row : larry := Larry (Nda DInt (Arr [1; 2] (VInt <$> [1; 2]%Z))) [[LStr "x"]; [LInt 3; LInt 5]].
Theorem C77_squeeze_refuted : exists h p q y z,
  read_larry h p = Some y /\ read_larry h q = Some z /\
  (forall x, part_of h q x -> part_of h p x \/ x = PObj q \/ exists o, x = POuter o) /\
  assert_isview h q p = Some [AboutLabel 0].
Proof.
  exists (after [ex_row] [CSqueeze 0]), 0, 1, ex_row, (Larry (Nda DInt (Arr [2] (VInt <$> [1; 2]%Z))) [[LInt 3; LInt 5]]).
  split_and!; [computes|computes| |by vm_compute].
  intros x (o1 & H1 & C1). vm_compute in H1. injection H1 as <-.
  destruct C1 as [-> |[-> |[(is1 & i1 & L1 & M1 & ->)|C1]]]; [by right; left|by right; right; eexists| |]; left.
  - vm_compute in L1. injection L1 as <-. eexists. split; [vm_compute; reflexivity|]. right; right; left.
    apply elem_of_list_singleton in M1 as ->. eexists _, _. split_and!; [vm_compute; reflexivity| |done]. right. by left.
  - eexists. split; [vm_compute; reflexivity|]. do 3 right. exact C1.
Qed.
Example C77_example :
  let prog := [CCopy 0; CT 0; CGetitem 0 (XInt 1); CSqueeze 0] in
  assert_iscopy (after [ex2] prog) 0 1 = Some [] /\ assert_iscopy (after [ex2] prog) 2 0 = Some [] /\
  assert_iscopy (after [ex2] prog) 3 0 = Some [AboutData] /\ assert_isview (after [ex2] prog) 3 0 = Some [AboutLabel 0] /\
  assert_isview (after [ex2] prog) 4 0 = Some [] /\ assert_iscopy (after [ex2] prog) 4 0 = Some [AboutData; AboutLabel 0; AboutLabel 1] /\
  assert_isview (after [ex2] prog) 1 0 = Some [AboutData; AboutLabel 0; AboutLabel 1].
Proof. cbv zeta. by vm_compute. Qed.
Example C77_calls_example :
  in_place (CT 0) = None /\ may_write (CT 0) = false /\ may_share (CT 0) = false /\
  Forall (fun p => exists y, read_larry (mem [ex2]) p = Some y /\ valid y) [0] /\
  hexec [0] (CT 0) (mem [ex2]) = (after [ex2] [CT 0], Ok [HLarry 1]).
Proof.
  split_and!; [done..| |by vm_compute]. apply Forall_singleton. exists ex2. split; [computes|solve_valid].
Qed.

Print Assumptions C77_iscopy_partial.
Print Assumptions C77_apart.
Print Assumptions C77_calls.
Print Assumptions C77_symmetric.
Print Assumptions C77_exclusive.
Print Assumptions C77_isview_partial.
Print Assumptions C77_cross_axis_refuted.
Print Assumptions C77_no_element_refuted.
Print Assumptions C77_isview_refuted.
Print Assumptions C77_squeeze_refuted.
