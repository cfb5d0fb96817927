(** C80: [assert_larry_equal] (la/util/testing.py:10-209). *)
From Verif Require Import PropsLarry PropsAlign PropsOps PropsNumeric PropsSession.
From Verif Require Import EqualFacts PropsHeap.

(** It passes if and only if the larrys have the same labels and the same
    elements, up to 1.5e-13 if one of them holds floats, and the same dtype if
    this is asked for. *)
Theorem C80_equal : forall h p q y z dtype iscopy, read_larry h p = Some y -> read_larry h q = Some z -> valid y -> valid z ->
  ldtype y <> DObj -> ldtype z <> DObj ->
  assert_larry_equal h (TLarry p) (TLarry q) dtype None iscopy = Ok [] <-> alike y z /\ (dtype = true -> ldtype y = ldtype z).
Proof. exact larrys_equal. Qed.
(** The headings say what is different. *)
Theorem C80_headings : forall h p q y z dtype iscopy, read_larry h p = Some y -> read_larry h q = Some z -> valid y -> valid z ->
  ldtype y <> DObj -> ldtype z <> DObj ->
  exists hs, assert_larry_equal h (TLarry p) (TLarry q) dtype None iscopy = Ok hs /\
    (HLabel ∈ hs <-> llabel y <> llabel z) /\ (HDtype ∈ hs <-> dtype = true /\ ldtype y <> ldtype z) /\
    (llabel y = llabel z -> (HData ∈ hs <-> ~ alike y z)) /\ Forall (fun x => x = HLabel \/ x = HData \/ x = HDtype) hs.
Proof. exact larrys_headings. Qed.
(** Larrys of integers, bools and strings that pass are equal; every larry
    passes with itself, and it does not matter which comes first. *)
Theorem C80_exact : forall h p q y z iscopy, read_larry h p = Some y -> read_larry h q = Some z -> valid y -> valid z ->
  ldtype y <> DObj -> ldtype z <> DObj -> ldtype y <> DFloat ->
  assert_larry_equal h (TLarry p) (TLarry q) true None iscopy = Ok [] <-> y = z.
Proof.
  intros h p q y z c Hp Hq Hy Hz Hoy Hoz Hf. rewrite (larrys_equal h p q y z true c) by done. split.
  - intros [Ha Hd]. exact (alike_exact y z Hy Hz Ha (Hd eq_refl) Hoy Hf).
  - intros <-. split; [exact (alike_refl y Hy Hoy)|done].
Qed.
Theorem C80_reflexive : forall h p q y dtype iscopy, read_larry h p = Some y -> read_larry h q = Some y -> valid y -> ldtype y <> DObj ->
  assert_larry_equal h (TLarry p) (TLarry q) dtype None iscopy = Ok [].
Proof. intros h p q y d c Hp Hq Hy Ho. apply (larrys_equal h p q y y d c); [done..|]. split; [exact (alike_refl y Hy Ho)|done]. Qed.
Theorem C80_symmetric : forall h p q y z dtype iscopy, read_larry h p = Some y -> read_larry h q = Some z -> valid y -> valid z ->
  ldtype y <> DObj -> ldtype z <> DObj ->
  assert_larry_equal h (TLarry p) (TLarry q) dtype None iscopy = Ok [] <-> assert_larry_equal h (TLarry q) (TLarry p) dtype None iscopy = Ok [].
Proof.
  intros h p q y z d c Hp Hq Hy Hz Hoy Hoz. rewrite (larrys_equal h p q y z d c), (larrys_equal h q p z y d c) by done.
  split; intros [Ha Hd]; (split; [exact (alike_sym _ _ Ha)|by intros E; rewrite Hd]).
Qed.
(** With an original, it is also checked for shared memory; results of calls
    that do not return views pass. *)
Theorem C80_original : forall h p q r y z dtype iscopy, read_larry h p = Some y -> read_larry h q = Some z -> valid y -> valid z ->
  ldtype y <> DObj -> ldtype z <> DObj ->
  assert_larry_equal h (TLarry p) (TLarry q) dtype (Some r) iscopy = Ok [] <->
  assert_larry_equal h (TLarry p) (TLarry q) dtype None iscopy = Ok [] /\
  (if iscopy then assert_iscopy h p r else assert_isview h p r) = Some [].
Proof. exact larrys_original. Qed.
Theorem C80_calls : forall h ps c h' rs a y d r x, in_place c = None -> may_write c = false -> may_share c = false ->
  Forall (fun p => exists y, read_larry h p = Some y /\ valid y) ps ->
  hexec ps c h = (h', Ok rs) -> HLarry a ∈ rs -> read_larry h' a = Some y -> valid y -> ldtype y <> DObj -> read_larry h' d = Some y ->
  read_larry h r = Some x ->
  assert_larry_equal h' (TLarry a) (TLarry d) true (Some r) true = Ok [].
Proof. exact calls_equal. Qed.
(** Numbers: up to 0.5e-7, and of the same type if this is asked for.  A larry
    is not equal to anything else. *)
Theorem C80_scalars : forall h n v n' w a b dtype original iscopy,
  to_num v = Some a -> to_num w = Some b ->
  (assert_larry_equal h (TScalar n v) (TScalar n' w) dtype original iscopy = Ok [] <->
   near tol_scalar a b /\ (dtype = true -> n = n' /\ exists dt, dt <> DObj /\ has_dtype dt v = true /\ has_dtype dt w = true)).
Proof. exact numbers_equal. Qed.
Theorem C80_larry_only : forall h p o dtype original iscopy, (forall q, o <> TLarry q) ->
  assert_larry_equal h (TLarry p) o dtype original iscopy = Ok [HType] /\ assert_larry_equal h o (TLarry p) dtype original iscopy = Ok [HType].
Proof. intros h p o d r c Ho. destruct o; [done| |done]. by destruct (Ho p0). Qed.

(** The documentation: an AssertionError if the inputs are not equal.  Strings
    that differ: a TypeError. *)
Theorem C80_strings_refuted : exists v w, v <> w /\
  forall h dtype, assert_larry_equal h (TScalar false v) (TScalar false w) dtype None true = Err TypeError.
Proof. by exists (VStr "a"), (VStr "b"). Qed.
(** It asserts equality: larrys that pass are not equal, and passing is not
    transitive. *)
Definition tiny (z : Z) : larry := Larry (Nda DFloat (Arr [1] [VFloat (Fin (Qc_of_Z z * Q2Qc (1 # 10000000000000))%Qc)])) [[LStr "a"]].
Theorem C80_transitive_refuted : exists x y z, Forall valid [x; y; z] /\
  assert_larry_equal (mem [x; y; z]) (TLarry 0) (TLarry 1) true None true = Ok [] /\
  assert_larry_equal (mem [x; y; z]) (TLarry 1) (TLarry 2) true None true = Ok [] /\
  assert_larry_equal (mem [x; y; z]) (TLarry 0) (TLarry 2) true None true = Ok [HData].
Proof. exists (tiny 0), (tiny 1), (tiny 2). split_and!; [repeat constructor; solve_valid|by vm_compute..]. Qed.
(** The documentation of [iscopy]: check that actual and desired share no
    references.  It is actual and original that are compared. *)
Theorem C80_iscopy_refuted : exists ys, Forall valid ys /\
  assert_larry_equal (mem ys) (TLarry 0) (TLarry 0) true (Some 1) true = Ok [].
Proof. exists [ex2; ex1]. split; [repeat constructor; solve_valid|by vm_compute]. Qed.
(** A larry of objects with a NaN is not equal to itself. *)
Theorem C80_object_refuted : exists y, valid y /\ assert_larry_equal (mem [y]) (TLarry 0) (TLarry 0) true None true = Ok [HData].
Proof.
  exists (Larry (Nda DObj (Arr [2] [VNone; VFloat NaN])) [[LStr "a"; LStr "b"]]). split; [solve_valid|by vm_compute].
Qed.

Definition ex_near (a b : num) : larry := Larry (Nda DFloat (Arr [2] [VFloat a; VFloat b])) [[LStr "a"; LStr "b"]].
Example C80_example :
  assert_larry_equal (mem [ex2; ex2]) (TLarry 0) (TLarry 1) true None true = Ok [] /\
  assert_larry_equal (mem [ex2; ex2]) (TLarry 0) (TLarry 1) true (Some 0) true = Ok [HNotCopy] /\
  assert_larry_equal (mem [ex2; ex2]) (TLarry 0) (TLarry 1) true (Some 0) false = Ok [] /\
  assert_larry_equal (mem [ex2; ex2]) (TLarry 0) (TLarry 1) true (Some 1) false = Ok [HIsCopy] /\
  assert_larry_equal (mem [ex1; ex2]) (TLarry 0) (TLarry 1) true None true = Ok [HLabel; HData; HDtype] /\
  assert_larry_equal (mem [ex_near NaN PInf; ex_near NaN PInf]) (TLarry 0) (TLarry 1) true None true = Ok [] /\
  assert_larry_equal (mem [ex_near NaN PInf; ex_near NaN NInf]) (TLarry 0) (TLarry 1) true None true = Ok [HData] /\
  assert_larry_equal (mem [ex_near NaN PInf; ex_near PInf NaN]) (TLarry 0) (TLarry 1) true None true = Ok [HData] /\
  assert_larry_equal (mem [ex_near NaN (num_of_Z 1); ex_near NaN (Fin (Q2Qc (10000000000001 # 10000000000000)))]) (TLarry 0) (TLarry 1) true None true = Ok [] /\
  assert_larry_equal (mem [ex_near NaN (num_of_Z 1); ex_near NaN (Fin (Q2Qc (10000000000002 # 10000000000000)))]) (TLarry 0) (TLarry 1) true None true = Ok [HData] /\
  assert_larry_equal (mem []) (TScalar false (VInt 1)) (TScalar true (VFloat (num_of_Z 1))) false None true = Ok [] /\
  assert_larry_equal (mem []) (TScalar false (VInt 1)) (TScalar true (VFloat (num_of_Z 1))) true None true = Ok [HType] /\
  assert_larry_equal (mem []) (TScalar false (VInt 1)) (TScalar false (VInt 2)) true None true = Ok [HScalars].
Proof. split_and!; by vm_compute. Qed.
Example C80_calls_ex :
  hexec [0] (CLag 0 1 (Some 1%Z)) (mem [ex2]) = (after [ex2] [CLag 0 1 (Some 1%Z)], Ok [HLarry 1]) /\
  assert_larry_equal (after [ex2] [CLag 0 1 (Some 1%Z)]) (TLarry 1) (TLarry 1) true (Some 0) true = Ok [].
Proof. split; by vm_compute. Qed.

Print Assumptions C80_equal.
Print Assumptions C80_headings.
Print Assumptions C80_exact.
Print Assumptions C80_reflexive.
Print Assumptions C80_symmetric.
Print Assumptions C80_original.
Print Assumptions C80_calls.
Print Assumptions C80_scalars.
Print Assumptions C80_larry_only.
Print Assumptions C80_strings_refuted.
Print Assumptions C80_transitive_refuted.
Print Assumptions C80_iscopy_refuted.
Print Assumptions C80_object_refuted.
