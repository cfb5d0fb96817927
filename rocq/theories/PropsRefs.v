(** C86, C87: the old checks for references, and data and labels returned as
    copies or references. *)
From Verif Require Import PropsLarry PropsAlign PropsOps PropsNumeric PropsSession.
From Verif Require Import RefsFacts PropsHeap.

(** * C86 *)

(** [noreference] is true if and only if the data is not the same array object
    and no list of labels is used along the same axis by both.  Missing: arrays
    that are views of the same data, see below. *)
Theorem C86_noreference_partial : forall same h p q y z,
  read_larry h p = Some y -> read_larry h q = Some z -> valid y -> valid z ->
  (noreference same h p q = Some (Ok true) <->
   lndim y = lndim z /\ same = false /\ forall ax i, list_at h p ax i -> ~ list_at h q ax i).
Proof. exact noreference_iff. Qed.
(** Larrys that share nothing pass. *)
Theorem C86_apart : forall same h p q y z,
  read_larry h p = Some y -> read_larry h q = Some z -> valid y -> valid z -> identity h p q same ->
  lndim y = lndim z -> apart h p q -> noreference same h p q = Some (Ok true).
Proof. exact apart_noreference. Qed.
(** So do the results of all calls that do not return views. *)
Theorem C86_calls : forall same h ps c h' rs q z p y,
  in_place c = None -> may_write c = false -> may_share c = false ->
  Forall (fun p => exists y, read_larry h p = Some y /\ valid y) ps ->
  hexec ps c h = (h', Ok rs) -> HLarry q ∈ rs -> read_larry h' q = Some z -> valid z -> read_larry h p = Some y -> valid y ->
  identity h' q p same -> lndim z = lndim y -> noreference same h' q p = Some (Ok true).
Proof. exact calls_noreference. Qed.
(** [nocopy] is true if and only if the array and the lists of labels are the
    same objects; the larrys are equal then and have nothing of their own but
    themselves and the list that holds the lists of labels. *)
Theorem C86_nocopy_iff : forall same h p q y z,
  read_larry h p = Some y -> read_larry h q = Some z -> valid y -> valid z ->
  (nocopy same h p q = Some (Ok true) <->
   lndim y = lndim z /\ same = true /\ forall ax i, list_at h p ax i <-> list_at h q ax i).
Proof. exact nocopy_iff. Qed.
Theorem C86_nocopy : forall same h p q y z,
  read_larry h p = Some y -> read_larry h q = Some z -> valid y -> valid z -> identity h p q same ->
  nocopy same h p q = Some (Ok true) -> y = z /\
  forall x, part_of h p x -> x = PObj p \/ (exists o, x = POuter o) \/ part_of h q x.
Proof. exact nocopy_same. Qed.
Theorem C86_self : forall same h p y, read_larry h p = Some y -> valid y -> identity h p p same ->
  noreference same h p p = Some (Ok false) /\ nocopy same h p p = Some (Ok true).
Proof. exact refs_self. Qed.
(** Both raise ValueError if and only if the numbers of axes differ. *)
Theorem C86_error : forall same h p q y z,
  read_larry h p = Some y -> read_larry h q = Some z -> valid y -> valid z ->
  (noreference same h p q = Some (Err ValueError) <-> lndim y <> lndim z) /\
  (nocopy same h p q = Some (Err ValueError) <-> lndim y <> lndim z) /\
  (lndim y = lndim z -> exists b c, noreference same h p q = Some (Ok b) /\ nocopy same h p q = Some (Ok c)).
Proof. exact refs_error. Qed.
(** The documentation of [noreference]: true if there are no shared
    references.  [y[1:]] is a view of the data of [y] with a new list of labels:
    whatever [same] can be, the check is true and writing to one changes the
    other. *)
Definition ex_tail : list call := [CGetitem 0 (XSlice (Slice (Some 1%Z) None None))].
Theorem C86_view_refuted : exists h p q y z,
  read_larry h p = Some y /\ read_larry h q = Some z /\ valid y /\ valid z /\
  (forall same, identity h p q same -> noreference same h p q = Some (Ok true)) /\
  exists b i, part_of h p (PCell b i) /\ part_of h q (PCell b i).
Proof.
  exists (after [ex1] ex_tail), 0, 1, ex1, (Larry (Nda DFloat (Arr [2] [vf 20; vf 30])) [[LStr "a"; LStr "c"]]).
  split; [computes|]. split; [computes|]. split; [solve_valid|]. split; [solve_valid|]. split.
  - intros [|] [Hid _]; [|by vm_compute]. specialize (Hid eq_refl). by vm_compute in Hid.
  - exists 0, 1. split; (eexists; split; [vm_compute; reflexivity|]); do 4 right; exists 1; (split; [|reflexivity]); vm_compute.
    + right. left.
    + left.
Qed.
(** Nor are the lists of different axes compared: the transpose made by hand
    of a larry. *)
Theorem C86_cross_axis_refuted : exists h p q y z i,
  read_larry h p = Some y /\ read_larry h q = Some z /\ valid y /\ valid z /\
  (forall same, identity h p q same -> noreference same h p q = Some (Ok true)) /\
  part_of h p (PList i) /\ part_of h q (PList i).
Proof.
  exists (Heap [(DInt, VInt <$> [1; 2; 3; 4]%Z); (DInt, VInt <$> [1; 3; 2; 4]%Z)] [[LStr "x"; LStr "y"]; [LInt 5; LInt 7]]
    [[0; 1]; [1; 0]] [HObj (HArr 0 (Arr [2; 2] [0; 1; 2; 3])) 0; HObj (HArr 1 (Arr [2; 2] [0; 1; 2; 3])) 1]), 0, 1,
    (Larry (Nda DInt (Arr [2; 2] (VInt <$> [1; 2; 3; 4]%Z))) [[LStr "x"; LStr "y"]; [LInt 5; LInt 7]]),
    (Larry (Nda DInt (Arr [2; 2] (VInt <$> [1; 3; 2; 4]%Z))) [[LInt 5; LInt 7]; [LStr "x"; LStr "y"]]), 0.
  split; [computes|]. split; [computes|]. split; [solve_valid|]. split; [solve_valid|]. split.
  - intros [|] [Hid _]; [|by vm_compute]. specialize (Hid eq_refl). by vm_compute in Hid.
  - split; (eexists; split; [vm_compute; reflexivity|]); right; right; left; eexists _, 0; (split; [vm_compute; reflexivity|]); (split; [|reflexivity]).
    + left.
    + right. left.
Qed.
Example C86_example :
  let prog := [CCopy 0; CGetitem 0 (XInt 1); CT 0] in
  noreference false (after [ex2] prog) 0 1 = Some (Ok true) /\ nocopy false (after [ex2] prog) 0 1 = Some (Ok false) /\
  noreference true (after [ex2] prog) 0 0 = Some (Ok false) /\ nocopy true (after [ex2] prog) 0 0 = Some (Ok true) /\
  noreference false (after [ex2] prog) 0 2 = Some (Err ValueError) /\ nocopy false (after [ex2] prog) 0 2 = Some (Err ValueError) /\
  noreference false (after [ex2] prog) 0 3 = Some (Ok true) /\ lndim ex2 = 2.
Proof. cbv zeta. by vm_compute. Qed.
Example C86_calls_example :
  in_place (CT 0) = None /\ may_write (CT 0) = false /\ may_share (CT 0) = false /\
  Forall (fun p => exists y, read_larry (mem [ex2]) p = Some y /\ valid y) [0] /\
  hexec [0] (CT 0) (mem [ex2]) = (after [ex2] [CT 0], Ok [HLarry 1]) /\ identity (after [ex2] [CT 0]) 1 0 false.
Proof.
  split_and!; [done..| |by vm_compute|done]. apply Forall_singleton. exists ex2. split; [computes|solve_valid].
Qed.

(** * C87 *)

(** [getx()] and [copyx()] return a new array with the same values and change
    nothing; [getx(copy=False)] and [A] return the array of the larry. *)
Theorem C87_copy : forall h p y, read_larry h p = Some y -> exists h' a, h_getx p true h = (h', Ok a) /\ h_copyx p h = (h', Ok a) /\
  unchanged h h' /\ own h h' (HNd a) /\ read_arr h' a = Some (lx y).
Proof. exact getx_copy. Qed.
Theorem C87_reference : forall h p y, read_larry h p = Some y -> exists ob, h_objs h !! p = Some ob /\
  h_getx p false h = (h, Ok (o_x ob)) /\ h_A p h = (h, Ok (o_x ob)) /\ read_arr h (o_x ob) = Some (lx y).
Proof. exact getx_ref. Qed.
(** Writing to the copy changes no larry that was there, writing to the
    reference writes to the larry. *)
Theorem C87_write_copy : forall h p y q z a h' x h2 r, read_larry h p = Some y -> read_larry h q = Some z ->
  h_getx p true h = (h', Ok a) -> write a x h' = (h2, r) -> read_larry h2 q = Some z.
Proof. exact getx_copy_write. Qed.
Theorem C87_write_reference : forall h p y a x, has h p y -> valid y -> h_getx p false h = (h, Ok a) ->
  nd_dtype x = ldtype y -> nd_shape x = lshape y -> nda_wf x ->
  exists h2, write a x h = (h2, Ok ()) /\ read_larry h2 p = Some (Larry x (llabel y)).
Proof. exact getx_ref_write. Qed.
(** [getlabel(axis, copy)] and [copylabel()]. *)
Theorem C87_label_copy : forall h p y axis ax, read_larry h p = Some y -> valid y -> axis_is y axis ax ->
  exists h' j l, h_getlabel p axis true h = (h', Ok j) /\ unchanged h h' /\ content_of h (PList j) = None /\
    llabel y !! ax = Some l /\ content_of h' (PList j) = Some (CLabels l).
Proof. exact getlabel_copy. Qed.
Theorem C87_label_reference : forall h p y axis ax, read_larry h p = Some y -> valid y -> axis_is y axis ax ->
  exists i, list_at h p ax i /\ h_getlabel p axis false h = (h, Ok i).
Proof. exact getlabel_ref. Qed.
Theorem C87_label_error : forall h p y axis copy, read_larry h p = Some y -> valid y ->
  (snd (h_getlabel p axis copy h) = Err IndexError <-> forall ax, ~ axis_is y axis ax) /\
  ((forall ax, ~ axis_is y axis ax) -> fst (h_getlabel p axis copy h) = h).
Proof. exact getlabel_error. Qed.
Theorem C87_copylabel : forall h p y, read_larry h p = Some y -> exists h' o, copylabel p h = (h', Ok o) /\ unchanged h h' /\
  read_label h' o = Some (llabel y) /\ content_of h (POuter o) = None /\
  forall is i, h_outers h' !! o = Some is -> i ∈ is -> content_of h (PList i) = None.
Proof. exact copylabel_new. Qed.
Example C87_example :
  let h := mem [ex1; ex2] in
  snd (h_getx 1 false h) = Ok (HArr 1 (Arr [2; 3] [0; 1; 2; 3; 4; 5])) /\ snd (h_getx 1 true h) = Ok (HArr 2 (Arr [2; 3] [0; 1; 2; 3; 4; 5])) /\
  snd (h_getlabel 1 (-1) false h) = Ok 2 /\ snd (h_getlabel 1 (-1) true h) = Ok 3 /\ snd (h_getlabel 1 2 true h) = Err IndexError /\
  has h 1 ex2.
Proof.
  cbv zeta. split_and!; [by vm_compute..|]. split; [computes|]. eexists _, _. split; [vm_compute; reflexivity|]. split; [vm_compute; reflexivity|].
  split; refine (bool_decide_unpack _ _); by vm_compute.
Qed.

Print Assumptions C86_noreference_partial.
Print Assumptions C86_apart.
Print Assumptions C86_calls.
Print Assumptions C86_nocopy_iff.
Print Assumptions C86_nocopy.
Print Assumptions C86_self.
Print Assumptions C86_error.
Print Assumptions C86_view_refuted.
Print Assumptions C86_cross_axis_refuted.
Print Assumptions C87_copy.
Print Assumptions C87_reference.
Print Assumptions C87_write_copy.
Print Assumptions C87_write_reference.
Print Assumptions C87_label_copy.
Print Assumptions C87_label_reference.
Print Assumptions C87_label_error.
Print Assumptions C87_copylabel.
