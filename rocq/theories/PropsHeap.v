(** C22: what calls share and what they write to. *)
From Verif Require Import PropsLarry PropsAlign PropsOps PropsNumeric PropsSession.
From Verif Require Export HeapFacts.

(** Memory holding some larrys and nothing else. *)
Definition mem (ys : list larry) : heap := fst (mapC h_new ys (Heap [] [] [] [])).
Definition after (ys : list larry) (prog : list call) : heap := fst (hrun (seq 0 (length ys)) prog (mem ys)).

(** No call other than those documented to work in place, [merge], and
    [binaryop] with missing elements replaced, changes anything that exists,
    whether it returns or raises. *)
Theorem C22_inputs_kept_partial : forall h ps c h' r, in_place c = None -> may_write c = false ->
  hexec ps c h = (h', r) -> unchanged h h' /\ forall p y, read_larry h p = Some y -> read_larry h' p = Some y.
Proof. intros h ps c h' r Hi Hw He. split; [exact (hexec_unchanged h ps c h' r Hi Hw He)|]. intros p y. exact (hexec_read h ps c h' r p y Hi Hw He). Qed.
(** Programs of such calls. *)
Theorem C22_program_partial : forall prog h ps h' r, Forall (fun c => in_place c = None /\ may_write c = false) prog ->
  hrun ps prog h = (h', r) -> unchanged h h' /\ forall p y, read_larry h p = Some y -> read_larry h' p = Some y.
Proof. exact hrun_unchanged. Qed.
(** Nothing of a result existed before, except for [__getitem__], [pull],
    [squeeze], [lix] and [merge]. *)
Theorem C22_results_own_partial : forall h ps c h' rs, in_place c = None -> may_write c = false -> may_share c = false ->
  Forall (fun p => exists y, read_larry h p = Some y /\ valid y) ps ->
  hexec ps c h = (h', Ok rs) -> Forall (own h h') rs.
Proof. exact hexec_own. Qed.
(** The results of these share memory with their own arguments only. *)
Theorem C22_results_share : forall h ps c h' rs r x, in_place c = None -> may_write c = false ->
  hexec ps c h = (h', Ok rs) -> may_share c = true -> r ∈ rs -> part_of_result h' r x ->
  content_of h x = None \/ exists i p, i ∈ args c /\ ps !! i = Some p /\ part_of h p x.
Proof. exact hexec_shared. Qed.
(** A call that works in place changes the larry it is called on only. *)
Theorem C22_in_place : forall h ps c i p h' r, in_place c = Some i -> ps !! i = Some p -> hexec ps c h = (h', r) ->
  forall x, ~ part_of h p x -> content_of h' x = content_of h x.
Proof. exact hexec_in_place_only. Qed.
(** [maplabel] and [flipaxis] with copy=False change the list of labels and
    the attributes of their larry only, not its data and not its labels. *)
Theorem C22_nocopy : forall h p h' r, (exists func axis, h_maplabel p func axis false h = (h', r)) \/
  (exists axis, h_flipaxis p axis false h = (h', r)) ->
  (forall q, r = Ok q -> q = p) /\
  forall x c, content_of h x = Some c -> x <> PObj p -> (forall ob, h_objs h !! p = Some ob -> x <> POuter (o_label ob)) ->
    content_of h' x = Some c.
Proof. exact nocopy_only. Qed.
(** Working in place on a result that is its own does not show in any larry
    that was there, and the other way round. *)
Theorem C22_independent : forall h ps c h' rs q z, in_place c = None -> may_write c = false -> may_share c = false ->
  Forall (fun p => exists y, read_larry h p = Some y /\ valid y) ps ->
  hexec ps c h = (h', Ok rs) -> HLarry q ∈ rs -> read_larry h' q = Some z ->
  (forall qs d i h2 r, in_place d = Some i -> qs !! i = Some q -> hexec qs d h' = (h2, r) ->
    forall p y, read_larry h p = Some y -> read_larry h2 p = Some y) /\
  (forall qs d i p y h2 r, in_place d = Some i -> qs !! i = Some p -> read_larry h p = Some y -> hexec qs d h' = (h2, r) ->
    read_larry h2 q = Some z).
Proof. exact hexec_independent. Qed.
(** [merge] of larrys whose labels differ. *)
Theorem C22_merge_partial : forall h p1 p2 y1 y2 update h' r, read_larry h p1 = Some y1 -> read_larry h p2 = Some y2 ->
  valid y1 -> valid y2 -> llabel y1 <> llabel y2 -> hexec [p1; p2] (CMerge 0 1 update) h = (h', r) ->
  unchanged h h' /\ forall rs, r = Ok rs -> Forall (own h h') rs.
Proof. exact hexec_merge_diff. Qed.
(** If the labels are the same [merge] returns [self], changed at most in its
    data. *)
Theorem C22_merge_same : forall h p1 p2 y1 y2 update h' r, read_larry h p1 = Some y1 -> read_larry h p2 = Some y2 ->
  llabel y1 = llabel y2 -> hexec [p1; p2] (CMerge 0 1 update) h = (h', r) ->
  (forall rs, r = Ok rs -> rs = [HLarry p1]) /\ forall x, ~ part_of h p1 x -> content_of h' x = content_of h x.
Proof. exact hexec_merge_same. Qed.
(** [binaryop] changes its two arguments at most; its result is its own. *)
Theorem C22_binaryop_partial : forall h p1 p2 op join cast m1 m2 h' r,
  hexec [p1; p2] (CBinaryop op 0 1 join cast m1 m2) h = (h', r) ->
  (forall x c, content_of h x = Some c -> ~ part_of h p1 x -> ~ part_of h p2 x -> content_of h' x = Some c) /\
  forall rs, r = Ok rs -> Forall (own h h') rs.
Proof. exact hexec_binaryop. Qed.

(** * Where the documented statement is false *)

Lemma hrun_pair ps prog h (rs : list nat) : snd (hrun ps prog h) = Ok rs -> hrun ps prog h = (fst (hrun ps prog h), Ok rs).
Proof. destruct (hrun ps prog h) as [h' r]. simpl. by intros ->. Qed.
Ltac computes := refine (bool_decide_unpack _ _); vm_compute; exact I.
Ltac refute ys prog rs y z :=
  exists (mem ys), (after ys prog), y, z;
  split; [computes|]; split; [solve_valid|]; split; [apply (hrun_pair _ prog (mem ys) rs); vm_compute; reflexivity|];
  split; [computes|]; computes.

(** Filling a slice of a larry fills part of the larry. *)
Theorem C22_getitem_refuted : exists h h' y z,
  read_larry h 0 = Some y /\ valid y /\
  hrun [0] [CGetitem 0 (XSlice (Slice (Some 0%Z) (Some 1%Z) None)); CFill 1 (VInt 99)] h = (h', Ok [0; 1]) /\
  read_larry h' 0 = Some z /\ z <> y.
Proof.
  refute [ex2] [CGetitem 0 (XSlice (Slice (Some 0%Z) (Some 1%Z) None)); CFill 1 (VInt 99)] [0; 1] ex2
    (Larry (Nda DInt (Arr [2; 3] (VInt <$> [99; 99; 99; 4; 5; 6]%Z))) (llabel ex2)).
Qed.

(** Permuting the labels of a pulled larry permutes those of the larry. *)
Theorem C22_pull_refuted : exists h h' y z,
  read_larry h 0 = Some y /\ valid y /\
  hrun [0] [CPull 0 (LStr "x") (Some 0%Z); CShufflelabel (fun _ _ => 0) 1 None] h = (h', Ok [0; 1]) /\
  read_larry h' 0 = Some z /\ z <> y.
Proof.
  refute [ex2] [CPull 0 (LStr "x") (Some 0%Z); CShufflelabel (fun _ _ => 0) 1 None] [0; 1] ex2
    (Larry (lx ex2) [[LStr "x"; LStr "y"]; [LInt 9; LInt 5; LInt 7]]).
Qed.
(** Squeezing a larry that has nothing to squeeze. *)
Theorem C22_squeeze_refuted : exists h h' y z,
  read_larry h 0 = Some y /\ valid y /\
  hrun [0] [CSqueeze 0; CSet 1 [LStr "a"] (VFloat NaN)] h = (h', Ok [0; 1]) /\
  read_larry h' 0 = Some z /\ z <> y.
Proof.
  refute [ex1] [CSqueeze 0; CSet 1 [LStr "a"] (VFloat NaN)] [0; 1] ex1
    (Larry (Nda DFloat (Arr [3] [vf 10; VFloat NaN; vf 30])) (llabel ex1)).
Qed.
(** [lix] on labels. *)
Theorem C22_lix_refuted : exists h h' y z,
  read_larry h 0 = Some y /\ valid y /\
  hrun [0] [CLixGet 0 (LxLabels [LStr "y"]); CFill 1 (VInt 0)] h = (h', Ok [0; 1]) /\
  read_larry h' 0 = Some z /\ z <> y.
Proof.
  refute [ex2] [CLixGet 0 (LxLabels [LStr "y"]); CFill 1 (VInt 0)] [0; 1] ex2
    (Larry (Nda DInt (Arr [2; 3] (VInt <$> [1; 2; 3; 0; 0; 0]%Z))) (llabel ex2)).
Qed.
(** [merge] itself changes the larry it is called on. *)
Theorem C22_merge_refuted : exists h h' y z,
  read_larry h 0 = Some y /\ valid y /\
  hrun [0; 1] [CMerge 0 1 true] h = (h', Ok [0; 1; 0]) /\
  read_larry h' 0 = Some z /\ z <> y.
Proof.
  refute [ex4; Larry (Nda DFloat (Arr [3] [VFloat NaN; vf 7; vf 8])) (llabel ex4)] [CMerge 0 1 true] [0; 1; 0] ex4
    (Larry (Nda DFloat (Arr [3] [vf 1; vf 7; vf 8])) (llabel ex4)).
Qed.
(** So does [binaryop] with [missone]. *)
Theorem C22_binaryop_refuted : exists h h' y z,
  read_larry h 0 = Some y /\ valid y /\
  hrun [0; 1] [CBinaryop AAdd 0 1 (JOne JInner) true (Some (vf 0)) None] h = (h', Ok [0; 1; 2]) /\
  read_larry h' 0 = Some z /\ z <> y.
Proof.
  refute [ex4; Larry (Nda DFloat (Arr [3] [VFloat NaN; vf 7; vf 8])) (llabel ex4)]
    [CBinaryop AAdd 0 1 (JOne JInner) true (Some (vf 0)) None] [0; 1; 2] ex4
    (Larry (Nda DFloat (Arr [3] [vf 1; vf 0; vf 5])) (llabel ex4)).
Qed.

(** A program that shares, copies and writes: views of views see each other,
    a copy does not; what the theorems say about it is not vacuous. *)
Definition ex_sharing : list call :=
  [CGetitem 0 (XTuple [ISlice slice_all; ISlice (Slice (Some 1%Z) None None)]); (* 1: a view *)
   CCopy 0;                                                                    (* 2 *)
   CPull 1 (LStr "y") (Some 0%Z);                                              (* 3: a view of the view *)
   CFlipaxis 1 None;                                                           (* 4: a copy *)
   CSetitem 3 (XInt 0) (SVal (VInt 50));
   CFill 2 (VInt 0);
   CShufflelabel (fun _ _ => 0) 3 None].
Example C22_example :
  (read_larry (mem [ex2]) 0 = Some ex2 /\
   snd (hrun [0] ex_sharing (mem [ex2])) = Ok [0; 1; 2; 3; 4] /\
   read_larry (after [ex2] ex_sharing) 0 = Some (Larry (Nda DInt (Arr [2; 3] (VInt <$> [1; 2; 3; 4; 50; 6]%Z))) (llabel ex2)) /\
   read_larry (after [ex2] ex_sharing) 1 = Some (Larry (Nda DInt (Arr [2; 2] (VInt <$> [2; 3; 50; 6]%Z))) [[LStr "x"; LStr "y"]; [LInt 5; LInt 9]]) /\
   read_larry (after [ex2] ex_sharing) 2 = Some (Larry (Nda DInt (Arr [2; 3] (VInt <$> [0; 0; 0; 0; 0; 0]%Z))) (llabel ex2)) /\
   read_larry (after [ex2] ex_sharing) 3 = Some (Larry (Nda DInt (Arr [2] (VInt <$> [50; 6]%Z))) [[LInt 5; LInt 9]]) /\
   read_larry (after [ex2] ex_sharing) 4 = Some (Larry (Nda DInt (Arr [2; 2] (VInt <$> [6; 5; 3; 2]%Z))) [[LStr "y"; LStr "x"]; [LInt 5; LInt 9]])) /\
  Forall (fun c => in_place c = None /\ may_write c = false) (take 4 ex_sharing) /\
  part_of (after [ex2] (take 1 ex_sharing)) 1 (PCell 0 4) /\ part_of (mem [ex2]) 0 (PCell 0 4).
Proof.
  split; [split_and!; computes|]. split; [by repeat constructor|]. split.
  - eexists. split; [vm_compute; reflexivity|]. do 3 right. right. exists 4. simpl. split; [|done]. do 2 right. by left.
  - eexists. split; [vm_compute; reflexivity|]. do 3 right. right. exists 4. simpl. split; [|done]. do 4 right. by left.
Qed.
(** [merge] of larrys with different labels, and a result of one's own. *)
Example C22_own_example :
  llabel ex1 <> llabel ex4 /\
  snd (hexec [0; 1] (CMerge 0 1 false) (mem [ex1; ex4])) = Err ValueError /\
  snd (hexec [0; 1] (CMerge 0 1 true) (mem [ex1; ex4])) = Ok [HLarry 2] /\
  read_larry (after [ex1; ex4] [CMerge 0 1 true]) 0 = Some ex1 /\
  read_larry (after [ex1; ex4] [CMerge 0 1 true; CFill 2 (vf 3)]) 0 = Some ex1 /\
  read_larry (after [ex1; ex4] [CMorphLike 0 1; CFill 0 (vf 3)]) 2 =
    Some (Larry (Nda DFloat (Arr [3] [vf 20; vf 10; VFloat NaN])) (llabel ex4)).
Proof. split_and!; first [computes | vm_compute; reflexivity]. Qed.

Print Assumptions C22_inputs_kept_partial.
Print Assumptions C22_program_partial.
Print Assumptions C22_results_own_partial.
Print Assumptions C22_results_share.
Print Assumptions C22_in_place.
Print Assumptions C22_nocopy.
Print Assumptions C22_independent.
Print Assumptions C22_merge_partial.
Print Assumptions C22_merge_same.
Print Assumptions C22_binaryop_partial.
Print Assumptions C22_getitem_refuted.
Print Assumptions C22_pull_refuted.
Print Assumptions C22_squeeze_refuted.
Print Assumptions C22_lix_refuted.
Print Assumptions C22_merge_refuted.
Print Assumptions C22_binaryop_refuted.
