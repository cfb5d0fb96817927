(** Written by tools/unit/gen.py from the unit tests of la: 106 tests, 192
    assertions.  The tests are read as text; a test or assertion that the
    reader does not follow is left out. *)
From Verif Require Import UnitBase.
From Verif Require Import Session SetArray.

(** la/tests/flarry_test.py:20 *)
Example flarry__Test_func__test_union_1 :
  (is_labs (y0 ← make (Nda DInt (Arr [2; 2] [VInt 1%Z; VInt 2%Z; VInt 3%Z; VInt 4%Z])) (Some [[LStr "a"%string; LStr "b"%string]; [LStr "c"%string; LStr "d"%string]]); y1 ← make (Nda DInt (Arr [2; 2] [VInt 1%Z; VInt 2%Z; VInt 3%Z; VInt 4%Z])) (Some [[LStr "e"%string; LStr "b"%string]; [LStr "f"%string; LStr "d"%string]]); union_labels 0%Z [y0; y1]) [LStr "a"%string; LStr "b"%string; LStr "e"%string]) &&
  (is_labs (y0 ← make (Nda DInt (Arr [2; 2] [VInt 1%Z; VInt 2%Z; VInt 3%Z; VInt 4%Z])) (Some [[LStr "a"%string; LStr "b"%string]; [LStr "c"%string; LStr "d"%string]]); y1 ← make (Nda DInt (Arr [2; 2] [VInt 1%Z; VInt 2%Z; VInt 3%Z; VInt 4%Z])) (Some [[LStr "e"%string; LStr "b"%string]; [LStr "f"%string; LStr "d"%string]]); union_labels 1%Z [y0; y1]) [LStr "c"%string; LStr "d"%string; LStr "f"%string]) = true.
Proof. by vm_compute. Qed.
(** la/tests/flarry_test.py:31 *)
Example flarry__Test_func__test_intersection_1 :
  (is_labs (y0 ← make (Nda DInt (Arr [2; 2] [VInt 1%Z; VInt 2%Z; VInt 3%Z; VInt 4%Z])) (Some [[LStr "a"%string; LStr "b"%string]; [LStr "c"%string; LStr "d"%string]]); y1 ← make (Nda DInt (Arr [2; 2] [VInt 1%Z; VInt 2%Z; VInt 3%Z; VInt 4%Z])) (Some [[LStr "e"%string; LStr "b"%string]; [LStr "f"%string; LStr "d"%string]]); intersection_labels 0%Z [y0; y1]) [LStr "b"%string]) &&
  (is_labs (y0 ← make (Nda DInt (Arr [2; 2] [VInt 1%Z; VInt 2%Z; VInt 3%Z; VInt 4%Z])) (Some [[LStr "a"%string; LStr "b"%string]; [LStr "c"%string; LStr "d"%string]]); y1 ← make (Nda DInt (Arr [2; 2] [VInt 1%Z; VInt 2%Z; VInt 3%Z; VInt 4%Z])) (Some [[LStr "e"%string; LStr "b"%string]; [LStr "f"%string; LStr "d"%string]]); intersection_labels 1%Z [y0; y1]) [LStr "d"%string]) = true.
Proof. by vm_compute. Qed.
(** la/tests/flarry_test.py:42 *)
Example flarry__Test_func__test_isaligned_1 :
  (is_bool (y ← make (Nda DInt (Arr [2; 2] [VInt 1%Z; VInt 2%Z; VInt 3%Z; VInt 4%Z])) (Some [[LStr "r1"%string; LStr "r2"%string]; [LStr "c1"%string; LStr "c2"%string]]); z ← make (Nda DInt (Arr [2; 2] [VInt 5%Z; VInt 6%Z; VInt 7%Z; VInt 8%Z])) (Some [[LStr "r2"%string; LStr "r1"%string]; [LStr "c1"%string; LStr "c2"%string]]); isaligned y z None) false) = true.
Proof. by vm_compute. Qed.
(** la/tests/flarry_test.py:49 *)
Example flarry__Test_func__test_isaligned_2 :
  (is_bool (y ← make (Nda DInt (Arr [2; 2] [VInt 1%Z; VInt 2%Z; VInt 3%Z; VInt 4%Z])) (Some [[LStr "r1"%string; LStr "r2"%string]; [LStr "c1"%string; LStr "c2"%string]]); z ← make (Nda DInt (Arr [2; 2] [VInt 4%Z; VInt 5%Z; VInt 6%Z; VInt 7%Z])) (Some [[LStr "r2"%string; LStr "r1"%string]; [LStr "c1"%string; LStr "c2"%string]]); isaligned y z (Some 0%Z)) false) = true.
Proof. by vm_compute. Qed.
(** la/tests/flarry_test.py:56 *)
Example flarry__Test_func__test_isaligned_3 :
  (is_bool (y ← make (Nda DInt (Arr [2; 2] [VInt 1%Z; VInt 2%Z; VInt 3%Z; VInt 4%Z])) (Some [[LStr "r1"%string; LStr "r2"%string]; [LStr "c1"%string; LStr "c2"%string]]); z ← make (Nda DInt (Arr [2; 2] [VInt 5%Z; VInt 6%Z; VInt 7%Z; VInt 8%Z])) (Some [[LStr "r2"%string; LStr "r1"%string]; [LStr "c1"%string; LStr "c2"%string]]); isaligned y z (Some 1%Z)) true) = true.
Proof. by vm_compute. Qed.
(** la/tests/flarry_test.py:63 *)
Example flarry__Test_func__test_isaligned_4 :
  (is_bool (y ← make (Nda DInt (Arr [2; 2] [VInt 1%Z; VInt 2%Z; VInt 3%Z; VInt 4%Z])) (Some [[LStr "r1"%string; LStr "r2"%string]; [LStr "c1"%string; LStr "c2"%string]]); z ← make (Nda DInt (Arr [2] [VInt 5%Z; VInt 6%Z])) (Some [[LStr "r1"%string; LStr "r2"%string]]); isaligned y z (Some 0%Z)) true) = true.
Proof. by vm_compute. Qed.
(** la/tests/flarry_test.py:70 *)
Example flarry__Test_func__test_isaligned_5 :
  (is_bool (y ← make (Nda DInt (Arr [2; 2] [VInt 1%Z; VInt 2%Z; VInt 3%Z; VInt 4%Z])) (Some [[LStr "r1"%string; LStr "r2"%string]; [LStr "c1"%string; LStr "c2"%string]]); z ← make (Nda DInt (Arr [2] [VInt 5%Z; VInt 6%Z])) (Some [[LStr "r1"%string; LStr "r2"%string]]); isaligned y z None) false) = true.
Proof. by vm_compute. Qed.
(** la/tests/flarry_test.py:127 *)
Example flarry__Test_func__test_stack_1 :
  (larry_same (y0 ← make (Nda DInt (Arr [2; 2] [VInt 1%Z; VInt 2%Z; VInt 3%Z; VInt 4%Z])) None; y1 ← make (Nda DInt (Arr [2; 2] [VInt 5%Z; VInt 6%Z; VInt 7%Z; VInt 8%Z])) None; stack SUnion [("name1"%string, y0); ("othername"%string, y1)]) (make (Nda DFloat (Arr [2; 2; 2] [VFloat (num_of_Z 1%Z); VFloat (num_of_Z 2%Z); VFloat (num_of_Z 3%Z); VFloat (num_of_Z 4%Z); VFloat (num_of_Z 5%Z); VFloat (num_of_Z 6%Z); VFloat (num_of_Z 7%Z); VFloat (num_of_Z 8%Z)])) (Some [[LStr "name1"%string; LStr "othername"%string]; [LInt 0%Z; LInt 1%Z]; [LInt 0%Z; LInt 1%Z]]))) = true.
Proof. by vm_compute. Qed.
(** la/tests/flarry_test.py:140 *)
Example flarry__Test_func__test_cov_1 :
  (larry_same (y ← y ← make (Nda DFloat (Arr [3; 4] [VFloat (num_of_Z 2%Z); VFloat (num_of_Z 2%Z); VFloat (num_of_Z 3%Z); VFloat (num_of_Z 1%Z); VFloat (num_of_Z 3%Z); VFloat (num_of_Z 2%Z); VFloat (num_of_Z 2%Z); VFloat (num_of_Z 1%Z); VFloat (num_of_Z 1%Z); VFloat (num_of_Z 1%Z); VFloat (num_of_Z 1%Z); VFloat (num_of_Z 1%Z)])) None; larry_demean y (Some 1%Z); larry_cov y) (make (Nda DFloat (Arr [3; 3] [VFloat (ra 1%Z 2); VFloat (ra 1%Z 4); VFloat (num_of_Z 0%Z); VFloat (ra 1%Z 4); VFloat (ra 1%Z 2); VFloat (num_of_Z 0%Z); VFloat (num_of_Z 0%Z); VFloat (num_of_Z 0%Z); VFloat (num_of_Z 0%Z)])) None)) = true.
Proof. by vm_compute. Qed.
(** la/tests/flarry_test.py:188 *)
Example flarry__Test_align_1d__test_1d1 :
  (larry_same (p ← (y ← make (Nda DInt (Arr [2] [VInt 1%Z; VInt 2%Z])) None; z ← make (Nda DInt (Arr [3] [VInt 1%Z; VInt 2%Z; VInt 3%Z])) None; align y z (JOne JInner) true); Ok p.1) (make (Nda DInt (Arr [2] [VInt 1%Z; VInt 2%Z])) None)) &&
  (larry_same (p ← (y ← make (Nda DInt (Arr [2] [VInt 1%Z; VInt 2%Z])) None; z ← make (Nda DInt (Arr [3] [VInt 1%Z; VInt 2%Z; VInt 3%Z])) None; align y z (JOne JInner) true); Ok p.2) (make (Nda DInt (Arr [2] [VInt 1%Z; VInt 2%Z])) None)) = true.
Proof. by vm_compute. Qed.
(** la/tests/flarry_test.py:199 *)
Example flarry__Test_align_1d__test_1d2 :
  (larry_same (p ← (y ← make (Nda DInt (Arr [2] [VInt 1%Z; VInt 2%Z])) None; z ← make (Nda DInt (Arr [3] [VInt 1%Z; VInt 2%Z; VInt 3%Z])) None; align y z (JOne JInner) true); Ok p.1) (make (Nda DInt (Arr [2] [VInt 1%Z; VInt 2%Z])) None)) &&
  (larry_same (p ← (y ← make (Nda DInt (Arr [2] [VInt 1%Z; VInt 2%Z])) None; z ← make (Nda DInt (Arr [3] [VInt 1%Z; VInt 2%Z; VInt 3%Z])) None; align y z (JOne JInner) true); Ok p.2) (make (Nda DInt (Arr [2] [VInt 1%Z; VInt 2%Z])) None)) = true.
Proof. by vm_compute. Qed.
(** la/tests/flarry_test.py:210 *)
Example flarry__Test_align_1d__test_1d3 :
  (larry_same (p ← (y ← make (Nda DInt (Arr [2] [VInt 1%Z; VInt 2%Z])) None; z ← make (Nda DInt (Arr [3] [VInt 1%Z; VInt 2%Z; VInt 3%Z])) None; align y z (JOne JInner) false); Ok p.1) (make (Nda DInt (Arr [2] [VInt 1%Z; VInt 2%Z])) None)) &&
  (larry_same (p ← (y ← make (Nda DInt (Arr [2] [VInt 1%Z; VInt 2%Z])) None; z ← make (Nda DInt (Arr [3] [VInt 1%Z; VInt 2%Z; VInt 3%Z])) None; align y z (JOne JInner) false); Ok p.2) (make (Nda DInt (Arr [2] [VInt 1%Z; VInt 2%Z])) None)) = true.
Proof. by vm_compute. Qed.
(** la/tests/flarry_test.py:221 *)
Example flarry__Test_align_1d__test_1d4 :
  (larry_same (p ← (y ← make (Nda DInt (Arr [2] [VInt 1%Z; VInt 2%Z])) None; z ← make (Nda DInt (Arr [3] [VInt 1%Z; VInt 2%Z; VInt 3%Z])) None; align y z (JOne JOuter) true); Ok p.1) (make (Nda DFloat (Arr [3] [VFloat (num_of_Z 1%Z); VFloat (num_of_Z 2%Z); VFloat (NaN)])) None)) &&
  (larry_same (p ← (y ← make (Nda DInt (Arr [2] [VInt 1%Z; VInt 2%Z])) None; z ← make (Nda DInt (Arr [3] [VInt 1%Z; VInt 2%Z; VInt 3%Z])) None; align y z (JOne JOuter) true); Ok p.2) (make (Nda DInt (Arr [3] [VInt 1%Z; VInt 2%Z; VInt 3%Z])) None)) = true.
Proof. by vm_compute. Qed.
(** la/tests/flarry_test.py:232 *)
Example flarry__Test_align_1d__test_1d5 :
  (raises (p ← (y ← make (Nda DInt (Arr [2] [VInt 1%Z; VInt 2%Z])) None; z ← make (Nda DInt (Arr [3] [VInt 1%Z; VInt 2%Z; VInt 3%Z])) None; align y z (JOne JOuter) false); Ok p.1) TypeError) = true.
Proof. by vm_compute. Qed.
(** la/tests/flarry_test.py:238 *)
Example flarry__Test_align_1d__test_1d6 :
  (larry_same (p ← (y ← make (Nda DInt (Arr [2] [VInt 1%Z; VInt 2%Z])) None; z ← make (Nda DInt (Arr [3] [VInt 1%Z; VInt 2%Z; VInt 3%Z])) None; align y z (JOne JLeft) true); Ok p.1) (make (Nda DInt (Arr [2] [VInt 1%Z; VInt 2%Z])) None)) &&
  (larry_same (p ← (y ← make (Nda DInt (Arr [2] [VInt 1%Z; VInt 2%Z])) None; z ← make (Nda DInt (Arr [3] [VInt 1%Z; VInt 2%Z; VInt 3%Z])) None; align y z (JOne JLeft) true); Ok p.2) (make (Nda DInt (Arr [2] [VInt 1%Z; VInt 2%Z])) None)) = true.
Proof. by vm_compute. Qed.
(** la/tests/flarry_test.py:249 *)
Example flarry__Test_align_1d__test_1d7 :
  (larry_same (p ← (y ← make (Nda DInt (Arr [2] [VInt 1%Z; VInt 2%Z])) None; z ← make (Nda DInt (Arr [3] [VInt 1%Z; VInt 2%Z; VInt 3%Z])) None; align y z (JOne JRight) true); Ok p.1) (make (Nda DFloat (Arr [3] [VFloat (num_of_Z 1%Z); VFloat (num_of_Z 2%Z); VFloat (NaN)])) None)) &&
  (larry_same (p ← (y ← make (Nda DInt (Arr [2] [VInt 1%Z; VInt 2%Z])) None; z ← make (Nda DInt (Arr [3] [VInt 1%Z; VInt 2%Z; VInt 3%Z])) None; align y z (JOne JRight) true); Ok p.2) (make (Nda DInt (Arr [3] [VInt 1%Z; VInt 2%Z; VInt 3%Z])) None)) = true.
Proof. by vm_compute. Qed.
(** la/tests/flarry_test.py:260 *)
Example flarry__Test_align_1d__test_1d8 :
  (larry_same (p ← (y ← make (Nda DInt (Arr [2] [VInt 1%Z; VInt 2%Z])) None; z ← make (Nda DInt (Arr [3] [VInt 1%Z; VInt 2%Z; VInt 3%Z])) None; align y z (JList [JRight]) true); Ok p.1) (make (Nda DFloat (Arr [3] [VFloat (num_of_Z 1%Z); VFloat (num_of_Z 2%Z); VFloat (NaN)])) None)) &&
  (larry_same (p ← (y ← make (Nda DInt (Arr [2] [VInt 1%Z; VInt 2%Z])) None; z ← make (Nda DInt (Arr [3] [VInt 1%Z; VInt 2%Z; VInt 3%Z])) None; align y z (JList [JRight]) true); Ok p.2) (make (Nda DInt (Arr [3] [VInt 1%Z; VInt 2%Z; VInt 3%Z])) None)) = true.
Proof. by vm_compute. Qed.
(** la/tests/flarry_test.py:271 *)
Example flarry__Test_align_1d__test_1d9 :
  (larry_same (p ← (y ← make (Nda DInt (Arr [2] [VInt 1%Z; VInt 2%Z])) None; z ← make (Nda DInt (Arr [2] [VInt 1%Z; VInt 2%Z])) (Some [[LStr "a"%string; LStr "b"%string]]); align y z (JOne JInner) true); Ok p.1) (make (Nda DInt (Arr [0] [])) None)) &&
  (larry_same (p ← (y ← make (Nda DInt (Arr [2] [VInt 1%Z; VInt 2%Z])) None; z ← make (Nda DInt (Arr [2] [VInt 1%Z; VInt 2%Z])) (Some [[LStr "a"%string; LStr "b"%string]]); align y z (JOne JInner) true); Ok p.2) (make (Nda DInt (Arr [0] [])) None)) = true.
Proof. by vm_compute. Qed.
(** la/tests/flarry_test.py:282 *)
Example flarry__Test_align_1d__test_1d10 :
  (larry_same (p ← (y ← make (Nda DInt (Arr [2] [VInt 1%Z; VInt 2%Z])) None; z ← make (Nda DInt (Arr [2] [VInt 1%Z; VInt 2%Z])) (Some [[LStr "a"%string; LStr "b"%string]]); align y z (JOne JInner) true); Ok p.1) (make (Nda DInt (Arr [0] [])) None)) &&
  (larry_same (p ← (y ← make (Nda DInt (Arr [2] [VInt 1%Z; VInt 2%Z])) None; z ← make (Nda DInt (Arr [2] [VInt 1%Z; VInt 2%Z])) (Some [[LStr "a"%string; LStr "b"%string]]); align y z (JOne JInner) true); Ok p.2) (make (Nda DInt (Arr [0] [])) None)) = true.
Proof. by vm_compute. Qed.
(** la/tests/flarry_test.py:293 *)
Example flarry__Test_align_1d__test_1d11 :
  (larry_same (p ← (y ← make (Nda DInt (Arr [2] [VInt 1%Z; VInt 2%Z])) None; z ← make (Nda DInt (Arr [2] [VInt 1%Z; VInt 2%Z])) (Some [[LStr "a"%string; LStr "b"%string]]); align y z (JOne JInner) true); Ok p.1) (make (Nda DInt (Arr [0] [])) None)) &&
  (larry_same (p ← (y ← make (Nda DInt (Arr [2] [VInt 1%Z; VInt 2%Z])) None; z ← make (Nda DInt (Arr [2] [VInt 1%Z; VInt 2%Z])) (Some [[LStr "a"%string; LStr "b"%string]]); align y z (JOne JInner) true); Ok p.2) (make (Nda DInt (Arr [0] [])) None)) = true.
Proof. by vm_compute. Qed.
(** la/tests/flarry_test.py:304 *)
Example flarry__Test_align_1d__test_1d12 :
  (larry_same (p ← (y ← make (Nda DInt (Arr [2] [VInt 1%Z; VInt 2%Z])) None; z ← make (Nda DInt (Arr [2] [VInt 1%Z; VInt 2%Z])) (Some [[LInt 3%Z; LInt 4%Z]]); align y z (JOne JOuter) true); Ok p.1) (make (Nda DFloat (Arr [4] [VFloat (num_of_Z 1%Z); VFloat (num_of_Z 2%Z); VFloat (NaN); VFloat (NaN)])) (Some [[LInt 0%Z; LInt 1%Z; LInt 3%Z; LInt 4%Z]]))) &&
  (larry_same (p ← (y ← make (Nda DInt (Arr [2] [VInt 1%Z; VInt 2%Z])) None; z ← make (Nda DInt (Arr [2] [VInt 1%Z; VInt 2%Z])) (Some [[LInt 3%Z; LInt 4%Z]]); align y z (JOne JOuter) true); Ok p.2) (make (Nda DFloat (Arr [4] [VFloat (NaN); VFloat (NaN); VFloat (num_of_Z 1%Z); VFloat (num_of_Z 2%Z)])) (Some [[LInt 0%Z; LInt 1%Z; LInt 3%Z; LInt 4%Z]]))) = true.
Proof. by vm_compute. Qed.
(** la/tests/flarry_test.py:315 *)
Example flarry__Test_align_1d__test_1d13 :
  (raises (p ← (y ← make (Nda DInt (Arr [2] [VInt 1%Z; VInt 2%Z])) None; z ← make (Nda DInt (Arr [2] [VInt 1%Z; VInt 2%Z])) (Some [[LStr "a"%string; LStr "b"%string]]); align y z (JOne JOuter) false); Ok p.1) TypeError) = true.
Proof. by vm_compute. Qed.
(** la/tests/flarry_test.py:321 *)
Example flarry__Test_align_1d__test_1d14 :
  (larry_same (p ← (y ← make (Nda DInt (Arr [2] [VInt 1%Z; VInt 2%Z])) None; z ← make (Nda DInt (Arr [2] [VInt 1%Z; VInt 2%Z])) (Some [[LStr "a"%string; LStr "b"%string]]); align y z (JOne JLeft) true); Ok p.1) (make (Nda DInt (Arr [2] [VInt 1%Z; VInt 2%Z])) None)) &&
  (larry_same (p ← (y ← make (Nda DInt (Arr [2] [VInt 1%Z; VInt 2%Z])) None; z ← make (Nda DInt (Arr [2] [VInt 1%Z; VInt 2%Z])) (Some [[LStr "a"%string; LStr "b"%string]]); align y z (JOne JLeft) true); Ok p.2) (make (Nda DFloat (Arr [2] [VFloat (NaN); VFloat (NaN)])) None)) = true.
Proof. by vm_compute. Qed.
(** la/tests/flarry_test.py:332 *)
Example flarry__Test_align_1d__test_1d15 :
  (larry_same (p ← (y ← make (Nda DInt (Arr [2] [VInt 1%Z; VInt 2%Z])) None; z ← make (Nda DInt (Arr [2] [VInt 1%Z; VInt 2%Z])) (Some [[LStr "a"%string; LStr "b"%string]]); align y z (JOne JRight) true); Ok p.1) (make (Nda DFloat (Arr [2] [VFloat (NaN); VFloat (NaN)])) (Some [[LStr "a"%string; LStr "b"%string]]))) &&
  (larry_same (p ← (y ← make (Nda DInt (Arr [2] [VInt 1%Z; VInt 2%Z])) None; z ← make (Nda DInt (Arr [2] [VInt 1%Z; VInt 2%Z])) (Some [[LStr "a"%string; LStr "b"%string]]); align y z (JOne JRight) true); Ok p.2) (make (Nda DInt (Arr [2] [VInt 1%Z; VInt 2%Z])) (Some [[LStr "a"%string; LStr "b"%string]]))) = true.
Proof. by vm_compute. Qed.
(** la/tests/flarry_test.py:343 *)
Example flarry__Test_align_1d__test_1d16 :
  (larry_same (p ← (y ← make (Nda DInt (Arr [2] [VInt 1%Z; VInt 2%Z])) None; z ← make (Nda DInt (Arr [2] [VInt 1%Z; VInt 2%Z])) (Some [[LStr "a"%string; LStr "b"%string]]); align y z (JList [JLeft]) true); Ok p.1) (make (Nda DInt (Arr [2] [VInt 1%Z; VInt 2%Z])) None)) &&
  (larry_same (p ← (y ← make (Nda DInt (Arr [2] [VInt 1%Z; VInt 2%Z])) None; z ← make (Nda DInt (Arr [2] [VInt 1%Z; VInt 2%Z])) (Some [[LStr "a"%string; LStr "b"%string]]); align y z (JList [JLeft]) true); Ok p.2) (make (Nda DFloat (Arr [2] [VFloat (NaN); VFloat (NaN)])) None)) = true.
Proof. by vm_compute. Qed.
(** la/tests/flarry_test.py:354 *)
Example flarry__Test_align_1d__test_1d17 :
  (raises (p ← (y ← make (Nda DInt (Arr [2] [VInt 1%Z; VInt 2%Z])) None; z ← make (Nda DInt (Arr [2] [VInt 1%Z; VInt 2%Z])) (Some [[LStr "a"%string; LStr "b"%string]]); align y z (JOne JOuter) false); Ok p.1) TypeError) = true.
Proof. by vm_compute. Qed.
(** la/tests/flarry_test.py:360 *)
Example flarry__Test_align_1d__test_1d18 :
  (larry_same (p ← (y ← make (Nda DInt (Arr [2] [VInt 1%Z; VInt 2%Z])) None; z ← make (Nda DInt (Arr [2] [VInt 1%Z; VInt 2%Z])) None; align y z (JOne JInner) false); Ok p.1) (make (Nda DInt (Arr [2] [VInt 1%Z; VInt 2%Z])) None)) &&
  (larry_same (p ← (y ← make (Nda DInt (Arr [2] [VInt 1%Z; VInt 2%Z])) None; z ← make (Nda DInt (Arr [2] [VInt 1%Z; VInt 2%Z])) None; align y z (JOne JInner) false); Ok p.2) (make (Nda DInt (Arr [2] [VInt 1%Z; VInt 2%Z])) None)) = true.
Proof. by vm_compute. Qed.
(** la/tests/flarry_test.py:371 *)
Example flarry__Test_align_1d__test_1d19 :
  (larry_same (p ← (y ← make (Nda DBool (Arr [2] [VBool true; VBool false])) None; z ← make (Nda DBool (Arr [3] [VBool true; VBool false; VBool true])) None; align y z (JOne JOuter) true); Ok p.1) (make (Nda DFloat (Arr [3] [VFloat (num_of_Z 1%Z); VFloat (num_of_Z 0%Z); VFloat (NaN)])) None)) &&
  (larry_same (p ← (y ← make (Nda DBool (Arr [2] [VBool true; VBool false])) None; z ← make (Nda DBool (Arr [3] [VBool true; VBool false; VBool true])) None; align y z (JOne JOuter) true); Ok p.2) (make (Nda DBool (Arr [3] [VBool true; VBool false; VBool true])) None)) = true.
Proof. by vm_compute. Qed.
(** la/tests/flarry_test.py:394 *)
Example flarry__Test_align_1d__test_1d21 :
  (larry_same (p ← (y ← make (Nda DInt (Arr [3] [VInt 1%Z; VInt 2%Z; VInt 3%Z])) None; z ← make (Nda DInt (Arr [4] [VInt 1%Z; VInt 2%Z; VInt 3%Z; VInt 4%Z])) None; align y z (JOne JSkip) true); Ok p.1) (make (Nda DInt (Arr [3] [VInt 1%Z; VInt 2%Z; VInt 3%Z])) None)) &&
  (larry_same (p ← (y ← make (Nda DInt (Arr [3] [VInt 1%Z; VInt 2%Z; VInt 3%Z])) None; z ← make (Nda DInt (Arr [4] [VInt 1%Z; VInt 2%Z; VInt 3%Z; VInt 4%Z])) None; align y z (JOne JSkip) true); Ok p.2) (make (Nda DInt (Arr [4] [VInt 1%Z; VInt 2%Z; VInt 3%Z; VInt 4%Z])) None)) = true.
Proof. by vm_compute. Qed.
(** la/tests/flarry_test.py:407 *)
Example flarry__Test_align_2d__test_2d1 :
  (larry_same (p ← (y ← make (Nda DInt (Arr [2; 2] [VInt 1%Z; VInt 2%Z; VInt 3%Z; VInt 4%Z])) None; z ← make (Nda DInt (Arr [2; 3] [VInt 1%Z; VInt 2%Z; VInt 5%Z; VInt 3%Z; VInt 4%Z; VInt 6%Z])) None; align y z (JOne JInner) true); Ok p.1) (make (Nda DInt (Arr [2; 2] [VInt 1%Z; VInt 2%Z; VInt 3%Z; VInt 4%Z])) None)) &&
  (larry_same (p ← (y ← make (Nda DInt (Arr [2; 2] [VInt 1%Z; VInt 2%Z; VInt 3%Z; VInt 4%Z])) None; z ← make (Nda DInt (Arr [2; 3] [VInt 1%Z; VInt 2%Z; VInt 5%Z; VInt 3%Z; VInt 4%Z; VInt 6%Z])) None; align y z (JOne JInner) true); Ok p.2) (make (Nda DInt (Arr [2; 2] [VInt 1%Z; VInt 2%Z; VInt 3%Z; VInt 4%Z])) None)) = true.
Proof. by vm_compute. Qed.
(** la/tests/flarry_test.py:418 *)
Example flarry__Test_align_2d__test_2d2 :
  (larry_same (p ← (y ← make (Nda DInt (Arr [2; 2] [VInt 1%Z; VInt 2%Z; VInt 3%Z; VInt 4%Z])) None; z ← make (Nda DInt (Arr [2; 3] [VInt 1%Z; VInt 2%Z; VInt 5%Z; VInt 3%Z; VInt 4%Z; VInt 6%Z])) None; align y z (JOne JInner) true); Ok p.1) (make (Nda DInt (Arr [2; 2] [VInt 1%Z; VInt 2%Z; VInt 3%Z; VInt 4%Z])) None)) &&
  (larry_same (p ← (y ← make (Nda DInt (Arr [2; 2] [VInt 1%Z; VInt 2%Z; VInt 3%Z; VInt 4%Z])) None; z ← make (Nda DInt (Arr [2; 3] [VInt 1%Z; VInt 2%Z; VInt 5%Z; VInt 3%Z; VInt 4%Z; VInt 6%Z])) None; align y z (JOne JInner) true); Ok p.2) (make (Nda DInt (Arr [2; 2] [VInt 1%Z; VInt 2%Z; VInt 3%Z; VInt 4%Z])) None)) = true.
Proof. by vm_compute. Qed.
(** la/tests/flarry_test.py:429 *)
Example flarry__Test_align_2d__test_2d3 :
  (larry_same (p ← (y ← make (Nda DInt (Arr [2; 2] [VInt 1%Z; VInt 2%Z; VInt 3%Z; VInt 4%Z])) None; z ← make (Nda DInt (Arr [2; 3] [VInt 1%Z; VInt 2%Z; VInt 5%Z; VInt 3%Z; VInt 4%Z; VInt 6%Z])) None; align y z (JOne JInner) false); Ok p.1) (make (Nda DInt (Arr [2; 2] [VInt 1%Z; VInt 2%Z; VInt 3%Z; VInt 4%Z])) None)) &&
  (larry_same (p ← (y ← make (Nda DInt (Arr [2; 2] [VInt 1%Z; VInt 2%Z; VInt 3%Z; VInt 4%Z])) None; z ← make (Nda DInt (Arr [2; 3] [VInt 1%Z; VInt 2%Z; VInt 5%Z; VInt 3%Z; VInt 4%Z; VInt 6%Z])) None; align y z (JOne JInner) false); Ok p.2) (make (Nda DInt (Arr [2; 2] [VInt 1%Z; VInt 2%Z; VInt 3%Z; VInt 4%Z])) None)) = true.
Proof. by vm_compute. Qed.
(** la/tests/flarry_test.py:440 *)
Example flarry__Test_align_2d__test_2d4 :
  (larry_same (p ← (y ← make (Nda DInt (Arr [2; 2] [VInt 1%Z; VInt 2%Z; VInt 3%Z; VInt 4%Z])) None; z ← make (Nda DInt (Arr [2; 3] [VInt 1%Z; VInt 2%Z; VInt 5%Z; VInt 3%Z; VInt 4%Z; VInt 6%Z])) None; align y z (JOne JOuter) true); Ok p.1) (make (Nda DFloat (Arr [2; 3] [VFloat (num_of_Z 1%Z); VFloat (num_of_Z 2%Z); VFloat (NaN); VFloat (num_of_Z 3%Z); VFloat (num_of_Z 4%Z); VFloat (NaN)])) None)) &&
  (larry_same (p ← (y ← make (Nda DInt (Arr [2; 2] [VInt 1%Z; VInt 2%Z; VInt 3%Z; VInt 4%Z])) None; z ← make (Nda DInt (Arr [2; 3] [VInt 1%Z; VInt 2%Z; VInt 5%Z; VInt 3%Z; VInt 4%Z; VInt 6%Z])) None; align y z (JOne JOuter) true); Ok p.2) (make (Nda DInt (Arr [2; 3] [VInt 1%Z; VInt 2%Z; VInt 5%Z; VInt 3%Z; VInt 4%Z; VInt 6%Z])) None)) = true.
Proof. by vm_compute. Qed.
(** la/tests/flarry_test.py:451 *)
Example flarry__Test_align_2d__test_2d5 :
  (raises (p ← (y ← make (Nda DInt (Arr [2; 2] [VInt 1%Z; VInt 2%Z; VInt 3%Z; VInt 4%Z])) None; z ← make (Nda DInt (Arr [2; 3] [VInt 1%Z; VInt 2%Z; VInt 5%Z; VInt 3%Z; VInt 4%Z; VInt 6%Z])) None; align y z (JOne JOuter) false); Ok p.1) TypeError) = true.
Proof. by vm_compute. Qed.
(** la/tests/flarry_test.py:457 *)
Example flarry__Test_align_2d__test_2d6 :
  (larry_same (p ← (y ← make (Nda DInt (Arr [2; 2] [VInt 1%Z; VInt 2%Z; VInt 3%Z; VInt 4%Z])) None; z ← make (Nda DInt (Arr [2; 3] [VInt 1%Z; VInt 2%Z; VInt 5%Z; VInt 3%Z; VInt 4%Z; VInt 6%Z])) None; align y z (JList [JInner; JOuter]) true); Ok p.1) (make (Nda DFloat (Arr [2; 3] [VFloat (num_of_Z 1%Z); VFloat (num_of_Z 2%Z); VFloat (NaN); VFloat (num_of_Z 3%Z); VFloat (num_of_Z 4%Z); VFloat (NaN)])) None)) &&
  (larry_same (p ← (y ← make (Nda DInt (Arr [2; 2] [VInt 1%Z; VInt 2%Z; VInt 3%Z; VInt 4%Z])) None; z ← make (Nda DInt (Arr [2; 3] [VInt 1%Z; VInt 2%Z; VInt 5%Z; VInt 3%Z; VInt 4%Z; VInt 6%Z])) None; align y z (JList [JInner; JOuter]) true); Ok p.2) (make (Nda DInt (Arr [2; 3] [VInt 1%Z; VInt 2%Z; VInt 5%Z; VInt 3%Z; VInt 4%Z; VInt 6%Z])) None)) = true.
Proof. by vm_compute. Qed.
(** la/tests/flarry_test.py:468 *)
Example flarry__Test_align_2d__test_2d7 :
  (raises (p ← (y ← make (Nda DInt (Arr [2; 2] [VInt 1%Z; VInt 2%Z; VInt 3%Z; VInt 4%Z])) None; z ← make (Nda DInt (Arr [2; 3] [VInt 1%Z; VInt 2%Z; VInt 5%Z; VInt 3%Z; VInt 4%Z; VInt 6%Z])) None; align y z (JList [JOuter; JInner; JLeft]) false); Ok p.1) ValueError) = true.
Proof. by vm_compute. Qed.
(** la/tests/flarry_test.py:475 *)
Example flarry__Test_align_2d__test_2d8 :
  (larry_same (p ← (y ← make (Nda DInt (Arr [2; 2] [VInt 1%Z; VInt 2%Z; VInt 3%Z; VInt 4%Z])) None; z ← make (Nda DInt (Arr [2; 2] [VInt 1%Z; VInt 2%Z; VInt 3%Z; VInt 4%Z])) None; align y z (JOne JInner) false); Ok p.1) (make (Nda DInt (Arr [2; 2] [VInt 1%Z; VInt 2%Z; VInt 3%Z; VInt 4%Z])) None)) &&
  (larry_same (p ← (y ← make (Nda DInt (Arr [2; 2] [VInt 1%Z; VInt 2%Z; VInt 3%Z; VInt 4%Z])) None; z ← make (Nda DInt (Arr [2; 2] [VInt 1%Z; VInt 2%Z; VInt 3%Z; VInt 4%Z])) None; align y z (JOne JInner) false); Ok p.2) (make (Nda DInt (Arr [2; 2] [VInt 1%Z; VInt 2%Z; VInt 3%Z; VInt 4%Z])) None)) = true.
Proof. by vm_compute. Qed.
(** la/tests/flarry_test.py:486 *)
Example flarry__Test_align_2d__test_2d9 :
  (larry_same (p ← (y ← make (Nda DInt (Arr [2; 2] [VInt 1%Z; VInt 2%Z; VInt 3%Z; VInt 4%Z])) None; z ← make (Nda DInt (Arr [2; 3] [VInt 1%Z; VInt 2%Z; VInt 5%Z; VInt 3%Z; VInt 4%Z; VInt 6%Z])) None; align y z (JOne JSkip) true); Ok p.1) (make (Nda DInt (Arr [2; 2] [VInt 1%Z; VInt 2%Z; VInt 3%Z; VInt 4%Z])) None)) &&
  (larry_same (p ← (y ← make (Nda DInt (Arr [2; 2] [VInt 1%Z; VInt 2%Z; VInt 3%Z; VInt 4%Z])) None; z ← make (Nda DInt (Arr [2; 3] [VInt 1%Z; VInt 2%Z; VInt 5%Z; VInt 3%Z; VInt 4%Z; VInt 6%Z])) None; align y z (JOne JSkip) true); Ok p.2) (make (Nda DInt (Arr [2; 3] [VInt 1%Z; VInt 2%Z; VInt 5%Z; VInt 3%Z; VInt 4%Z; VInt 6%Z])) None)) = true.
Proof. by vm_compute. Qed.
(** la/tests/flarry_test.py:496 *)
Example flarry__Test_align_2d__test_2d10 :
  (larry_same (p ← (y ← make (Nda DInt (Arr [3; 2] [VInt 1%Z; VInt 2%Z; VInt 3%Z; VInt 4%Z; VInt 7%Z; VInt 8%Z])) None; z ← make (Nda DInt (Arr [2; 3] [VInt 1%Z; VInt 2%Z; VInt 5%Z; VInt 3%Z; VInt 4%Z; VInt 6%Z])) None; align y z (JList [JInner; JSkip]) true); Ok p.1) (make (Nda DInt (Arr [2; 2] [VInt 1%Z; VInt 2%Z; VInt 3%Z; VInt 4%Z])) None)) &&
  (larry_same (p ← (y ← make (Nda DInt (Arr [3; 2] [VInt 1%Z; VInt 2%Z; VInt 3%Z; VInt 4%Z; VInt 7%Z; VInt 8%Z])) None; z ← make (Nda DInt (Arr [2; 3] [VInt 1%Z; VInt 2%Z; VInt 5%Z; VInt 3%Z; VInt 4%Z; VInt 6%Z])) None; align y z (JList [JInner; JSkip]) true); Ok p.2) (make (Nda DInt (Arr [2; 3] [VInt 1%Z; VInt 2%Z; VInt 5%Z; VInt 3%Z; VInt 4%Z; VInt 6%Z])) None)) = true.
Proof. by vm_compute. Qed.
(** la/tests/flarry_test.py:507 *)
Example flarry__Test_align_2d__test_2d11 :
  (larry_same (p ← (y ← make (Nda DFloat (Arr [3; 2] [VFloat (ra 1%Z 10); VFloat (ra 1%Z 5); VFloat (ra 3%Z 10); VFloat (ra 2%Z 5); VFloat (ra 7%Z 10); VFloat (ra 4%Z 5)])) None; z ← make (Nda DFloat (Arr [2; 3] [VFloat (ra 1%Z 10); VFloat (ra 1%Z 5); VFloat (ra 1%Z 2); VFloat (ra 3%Z 10); VFloat (ra 2%Z 5); VFloat (ra 3%Z 5)])) None; align y z (JList [JSkip; JOuter]) true); Ok p.1) (make (Nda DFloat (Arr [3; 3] [VFloat (ra 1%Z 10); VFloat (ra 1%Z 5); VFloat (NaN); VFloat (ra 3%Z 10); VFloat (ra 2%Z 5); VFloat (NaN); VFloat (ra 7%Z 10); VFloat (ra 4%Z 5); VFloat (NaN)])) None)) &&
  (larry_same (p ← (y ← make (Nda DFloat (Arr [3; 2] [VFloat (ra 1%Z 10); VFloat (ra 1%Z 5); VFloat (ra 3%Z 10); VFloat (ra 2%Z 5); VFloat (ra 7%Z 10); VFloat (ra 4%Z 5)])) None; z ← make (Nda DFloat (Arr [2; 3] [VFloat (ra 1%Z 10); VFloat (ra 1%Z 5); VFloat (ra 1%Z 2); VFloat (ra 3%Z 10); VFloat (ra 2%Z 5); VFloat (ra 3%Z 5)])) None; align y z (JList [JSkip; JOuter]) true); Ok p.2) (make (Nda DFloat (Arr [2; 3] [VFloat (ra 1%Z 10); VFloat (ra 1%Z 5); VFloat (ra 1%Z 2); VFloat (ra 3%Z 10); VFloat (ra 2%Z 5); VFloat (ra 3%Z 5)])) None)) = true.
Proof. by vm_compute. Qed.
(** la/tests/flarry_test.py:522 *)
Example flarry__Test_align_axis__test_align_axis_1 :
  (larry_same (l ← (y0 ← make (Nda DFloat (Arr [3; 2] [VFloat (ra 1%Z 10); VFloat (ra 1%Z 5); VFloat (ra 3%Z 10); VFloat (ra 2%Z 5); VFloat (ra 7%Z 10); VFloat (ra 4%Z 5)])) None; y1 ← make (Nda DFloat (Arr [2; 3] [VFloat (ra 1%Z 10); VFloat (ra 1%Z 5); VFloat (ra 1%Z 2); VFloat (ra 3%Z 10); VFloat (ra 2%Z 5); VFloat (ra 3%Z 5)])) None; align_axis [y0; y1] [1%Z; 1%Z] JOuter); of_opt IndexError (l !! 0)) (make (Nda DFloat (Arr [3; 3] [VFloat (ra 1%Z 10); VFloat (ra 1%Z 5); VFloat (NaN); VFloat (ra 3%Z 10); VFloat (ra 2%Z 5); VFloat (NaN); VFloat (ra 7%Z 10); VFloat (ra 4%Z 5); VFloat (NaN)])) None)) &&
  (larry_same (l ← (y0 ← make (Nda DFloat (Arr [3; 2] [VFloat (ra 1%Z 10); VFloat (ra 1%Z 5); VFloat (ra 3%Z 10); VFloat (ra 2%Z 5); VFloat (ra 7%Z 10); VFloat (ra 4%Z 5)])) None; y1 ← make (Nda DFloat (Arr [2; 3] [VFloat (ra 1%Z 10); VFloat (ra 1%Z 5); VFloat (ra 1%Z 2); VFloat (ra 3%Z 10); VFloat (ra 2%Z 5); VFloat (ra 3%Z 5)])) None; align_axis [y0; y1] [1%Z; 1%Z] JOuter); of_opt IndexError (l !! 1)) (make (Nda DFloat (Arr [2; 3] [VFloat (ra 1%Z 10); VFloat (ra 1%Z 5); VFloat (ra 1%Z 2); VFloat (ra 3%Z 10); VFloat (ra 2%Z 5); VFloat (ra 3%Z 5)])) None)) = true.
Proof. by vm_compute. Qed.
(** la/tests/flarry_test.py:533 *)
Example flarry__Test_align_axis__test_align_axis_2 :
  (larry_same (l ← (y0 ← make (Nda DInt (Arr [3; 2] [VInt 1%Z; VInt 2%Z; VInt 3%Z; VInt 4%Z; VInt 7%Z; VInt 8%Z])) None; y1 ← make (Nda DInt (Arr [2; 3] [VInt 1%Z; VInt 2%Z; VInt 5%Z; VInt 3%Z; VInt 4%Z; VInt 6%Z])) None; align_axis [y0; y1] [0%Z; 0%Z] JInner); of_opt IndexError (l !! 0)) (make (Nda DInt (Arr [2; 2] [VInt 1%Z; VInt 2%Z; VInt 3%Z; VInt 4%Z])) None)) &&
  (larry_same (l ← (y0 ← make (Nda DInt (Arr [3; 2] [VInt 1%Z; VInt 2%Z; VInt 3%Z; VInt 4%Z; VInt 7%Z; VInt 8%Z])) None; y1 ← make (Nda DInt (Arr [2; 3] [VInt 1%Z; VInt 2%Z; VInt 5%Z; VInt 3%Z; VInt 4%Z; VInt 6%Z])) None; align_axis [y0; y1] [0%Z; 0%Z] JInner); of_opt IndexError (l !! 1)) (make (Nda DInt (Arr [2; 3] [VInt 1%Z; VInt 2%Z; VInt 5%Z; VInt 3%Z; VInt 4%Z; VInt 6%Z])) None)) = true.
Proof. by vm_compute. Qed.
(** la/tests/flarry_test.py:572 *)
Example flarry__Test_align_axis__test_align_axis_5 :
  (larry_same (l ← (y0 ← make (Nda DFloat (Arr [3; 2] [VFloat (num_of_Z 1%Z); VFloat (num_of_Z 2%Z); VFloat (num_of_Z 3%Z); VFloat (num_of_Z 4%Z); VFloat (num_of_Z 5%Z); VFloat (num_of_Z 6%Z)])) (Some [[LStr "a"%string; LStr "b"%string; LStr "c"%string]; [LInt 1%Z; LInt 2%Z]]); y1 ← make (Nda DStr (Arr [3; 1] [VStr "x"%string; VStr "y"%string; VStr "z"%string])) (Some [[LStr "a"%string; LStr "b"%string; LStr "cc"%string]; [LInt 1%Z]]); y2 ← make (Nda DInt (Arr [3] [VInt 50%Z; VInt 51%Z; VInt 52%Z])) (Some [[LStr "aa"%string; LStr "b"%string; LStr "c"%string]]); align_axis [y0; y1; y2] [0%Z; 0%Z; 0%Z] JInner); of_opt IndexError (l !! 0)) (make (Nda DFloat (Arr [1; 2] [VFloat (num_of_Z 3%Z); VFloat (num_of_Z 4%Z)])) (Some [[LStr "b"%string]; [LInt 1%Z; LInt 2%Z]]))) &&
  (larry_same (l ← (y0 ← make (Nda DFloat (Arr [3; 2] [VFloat (num_of_Z 1%Z); VFloat (num_of_Z 2%Z); VFloat (num_of_Z 3%Z); VFloat (num_of_Z 4%Z); VFloat (num_of_Z 5%Z); VFloat (num_of_Z 6%Z)])) (Some [[LStr "a"%string; LStr "b"%string; LStr "c"%string]; [LInt 1%Z; LInt 2%Z]]); y1 ← make (Nda DStr (Arr [3; 1] [VStr "x"%string; VStr "y"%string; VStr "z"%string])) (Some [[LStr "a"%string; LStr "b"%string; LStr "cc"%string]; [LInt 1%Z]]); y2 ← make (Nda DInt (Arr [3] [VInt 50%Z; VInt 51%Z; VInt 52%Z])) (Some [[LStr "aa"%string; LStr "b"%string; LStr "c"%string]]); align_axis [y0; y1; y2] [0%Z; 0%Z; 0%Z] JInner); of_opt IndexError (l !! 1)) (make (Nda DStr (Arr [1; 1] [VStr "y"%string])) (Some [[LStr "b"%string]; [LInt 1%Z]]))) &&
  (larry_same (l ← (y0 ← make (Nda DFloat (Arr [3; 2] [VFloat (num_of_Z 1%Z); VFloat (num_of_Z 2%Z); VFloat (num_of_Z 3%Z); VFloat (num_of_Z 4%Z); VFloat (num_of_Z 5%Z); VFloat (num_of_Z 6%Z)])) (Some [[LStr "a"%string; LStr "b"%string; LStr "c"%string]; [LInt 1%Z; LInt 2%Z]]); y1 ← make (Nda DStr (Arr [3; 1] [VStr "x"%string; VStr "y"%string; VStr "z"%string])) (Some [[LStr "a"%string; LStr "b"%string; LStr "cc"%string]; [LInt 1%Z]]); y2 ← make (Nda DInt (Arr [3] [VInt 50%Z; VInt 51%Z; VInt 52%Z])) (Some [[LStr "aa"%string; LStr "b"%string; LStr "c"%string]]); align_axis [y0; y1; y2] [0%Z; 0%Z; 0%Z] JInner); of_opt IndexError (l !! 2)) (make (Nda DInt (Arr [1] [VInt 51%Z])) (Some [[LStr "b"%string]]))) = true.
Proof. by vm_compute. Qed.
(** la/tests/flarry_test.py:587 *)
Example flarry__Test_align_axis__test_align_axis_6 :
  (larry_same (l ← (y0 ← make (Nda DFloat (Arr [3; 2] [VFloat (num_of_Z 1%Z); VFloat (num_of_Z 2%Z); VFloat (num_of_Z 3%Z); VFloat (num_of_Z 4%Z); VFloat (num_of_Z 5%Z); VFloat (num_of_Z 6%Z)])) (Some [[LStr "a"%string; LStr "b"%string; LStr "c"%string]; [LInt 1%Z; LInt 2%Z]]); y1 ← make (Nda DStr (Arr [3; 1] [VStr "x"%string; VStr "y"%string; VStr "z"%string])) (Some [[LStr "a"%string; LStr "b"%string; LStr "cc"%string]; [LInt 1%Z]]); y2 ← make (Nda DInt (Arr [3] [VInt 50%Z; VInt 51%Z; VInt 52%Z])) (Some [[LStr "aa"%string; LStr "b"%string; LStr "c"%string]]); align_axis [y0; y1; y2] [0%Z; 0%Z; 0%Z] JOuter); of_opt IndexError (l !! 0)) (make (Nda DFloat (Arr [5; 2] [VFloat (num_of_Z 1%Z); VFloat (num_of_Z 2%Z); VFloat (NaN); VFloat (NaN); VFloat (num_of_Z 3%Z); VFloat (num_of_Z 4%Z); VFloat (num_of_Z 5%Z); VFloat (num_of_Z 6%Z); VFloat (NaN); VFloat (NaN)])) (Some [[LStr "a"%string; LStr "aa"%string; LStr "b"%string; LStr "c"%string; LStr "cc"%string]; [LInt 1%Z; LInt 2%Z]]))) &&
  (larry_same (l ← (y0 ← make (Nda DFloat (Arr [3; 2] [VFloat (num_of_Z 1%Z); VFloat (num_of_Z 2%Z); VFloat (num_of_Z 3%Z); VFloat (num_of_Z 4%Z); VFloat (num_of_Z 5%Z); VFloat (num_of_Z 6%Z)])) (Some [[LStr "a"%string; LStr "b"%string; LStr "c"%string]; [LInt 1%Z; LInt 2%Z]]); y1 ← make (Nda DStr (Arr [3; 1] [VStr "x"%string; VStr "y"%string; VStr "z"%string])) (Some [[LStr "a"%string; LStr "b"%string; LStr "cc"%string]; [LInt 1%Z]]); y2 ← make (Nda DInt (Arr [3] [VInt 50%Z; VInt 51%Z; VInt 52%Z])) (Some [[LStr "aa"%string; LStr "b"%string; LStr "c"%string]]); align_axis [y0; y1; y2] [0%Z; 0%Z; 0%Z] JOuter); of_opt IndexError (l !! 1)) (make (Nda DStr (Arr [5; 1] [VStr "x"%string; VStr ""%string; VStr "y"%string; VStr ""%string; VStr "z"%string])) (Some [[LStr "a"%string; LStr "aa"%string; LStr "b"%string; LStr "c"%string; LStr "cc"%string]; [LInt 1%Z]]))) &&
  (larry_same (l ← (y0 ← make (Nda DFloat (Arr [3; 2] [VFloat (num_of_Z 1%Z); VFloat (num_of_Z 2%Z); VFloat (num_of_Z 3%Z); VFloat (num_of_Z 4%Z); VFloat (num_of_Z 5%Z); VFloat (num_of_Z 6%Z)])) (Some [[LStr "a"%string; LStr "b"%string; LStr "c"%string]; [LInt 1%Z; LInt 2%Z]]); y1 ← make (Nda DStr (Arr [3; 1] [VStr "x"%string; VStr "y"%string; VStr "z"%string])) (Some [[LStr "a"%string; LStr "b"%string; LStr "cc"%string]; [LInt 1%Z]]); y2 ← make (Nda DInt (Arr [3] [VInt 50%Z; VInt 51%Z; VInt 52%Z])) (Some [[LStr "aa"%string; LStr "b"%string; LStr "c"%string]]); align_axis [y0; y1; y2] [0%Z; 0%Z; 0%Z] JOuter); of_opt IndexError (l !! 2)) (make (Nda DFloat (Arr [5] [VFloat (NaN); VFloat (num_of_Z 50%Z); VFloat (num_of_Z 51%Z); VFloat (num_of_Z 52%Z); VFloat (NaN)])) (Some [[LStr "a"%string; LStr "aa"%string; LStr "b"%string; LStr "c"%string; LStr "cc"%string]]))) = true.
Proof. by vm_compute. Qed.
(** la/tests/flarry_test.py:608 *)
Example flarry__Test_align_axis__test_align_axis_7 :
  (larry_same (l ← (y0 ← make (Nda DFloat (Arr [3; 2] [VFloat (num_of_Z 1%Z); VFloat (num_of_Z 2%Z); VFloat (num_of_Z 3%Z); VFloat (num_of_Z 4%Z); VFloat (num_of_Z 5%Z); VFloat (num_of_Z 6%Z)])) (Some [[LStr "a"%string; LStr "b"%string; LStr "c"%string]; [LInt 1%Z; LInt 2%Z]]); y1 ← make (Nda DStr (Arr [3; 1] [VStr "x"%string; VStr "y"%string; VStr "z"%string])) (Some [[LStr "a"%string; LStr "b"%string; LStr "cc"%string]; [LInt 1%Z]]); y2 ← make (Nda DInt (Arr [3] [VInt 50%Z; VInt 51%Z; VInt 52%Z])) (Some [[LStr "aa"%string; LStr "b"%string; LStr "c"%string]]); align_axis [y0; y1; y2] [0%Z; 0%Z; 0%Z] JLeft); of_opt IndexError (l !! 0)) (make (Nda DFloat (Arr [3; 2] [VFloat (num_of_Z 1%Z); VFloat (num_of_Z 2%Z); VFloat (num_of_Z 3%Z); VFloat (num_of_Z 4%Z); VFloat (num_of_Z 5%Z); VFloat (num_of_Z 6%Z)])) (Some [[LStr "a"%string; LStr "b"%string; LStr "c"%string]; [LInt 1%Z; LInt 2%Z]]))) &&
  (larry_same (l ← (y0 ← make (Nda DFloat (Arr [3; 2] [VFloat (num_of_Z 1%Z); VFloat (num_of_Z 2%Z); VFloat (num_of_Z 3%Z); VFloat (num_of_Z 4%Z); VFloat (num_of_Z 5%Z); VFloat (num_of_Z 6%Z)])) (Some [[LStr "a"%string; LStr "b"%string; LStr "c"%string]; [LInt 1%Z; LInt 2%Z]]); y1 ← make (Nda DStr (Arr [3; 1] [VStr "x"%string; VStr "y"%string; VStr "z"%string])) (Some [[LStr "a"%string; LStr "b"%string; LStr "cc"%string]; [LInt 1%Z]]); y2 ← make (Nda DInt (Arr [3] [VInt 50%Z; VInt 51%Z; VInt 52%Z])) (Some [[LStr "aa"%string; LStr "b"%string; LStr "c"%string]]); align_axis [y0; y1; y2] [0%Z; 0%Z; 0%Z] JLeft); of_opt IndexError (l !! 1)) (make (Nda DStr (Arr [3; 1] [VStr "x"%string; VStr "y"%string; VStr ""%string])) (Some [[LStr "a"%string; LStr "b"%string; LStr "c"%string]; [LInt 1%Z]]))) &&
  (larry_same (l ← (y0 ← make (Nda DFloat (Arr [3; 2] [VFloat (num_of_Z 1%Z); VFloat (num_of_Z 2%Z); VFloat (num_of_Z 3%Z); VFloat (num_of_Z 4%Z); VFloat (num_of_Z 5%Z); VFloat (num_of_Z 6%Z)])) (Some [[LStr "a"%string; LStr "b"%string; LStr "c"%string]; [LInt 1%Z; LInt 2%Z]]); y1 ← make (Nda DStr (Arr [3; 1] [VStr "x"%string; VStr "y"%string; VStr "z"%string])) (Some [[LStr "a"%string; LStr "b"%string; LStr "cc"%string]; [LInt 1%Z]]); y2 ← make (Nda DInt (Arr [3] [VInt 50%Z; VInt 51%Z; VInt 52%Z])) (Some [[LStr "aa"%string; LStr "b"%string; LStr "c"%string]]); align_axis [y0; y1; y2] [0%Z; 0%Z; 0%Z] JLeft); of_opt IndexError (l !! 2)) (make (Nda DFloat (Arr [3] [VFloat (NaN); VFloat (num_of_Z 51%Z); VFloat (num_of_Z 52%Z)])) (Some [[LStr "a"%string; LStr "b"%string; LStr "c"%string]]))) = true.
Proof. by vm_compute. Qed.
(** la/tests/flarry_test.py:626 *)
Example flarry__Test_align_axis__test_align_axis_8 :
  (larry_same (l ← (y0 ← make (Nda DInt (Arr [3] [VInt 50%Z; VInt 51%Z; VInt 52%Z])) (Some [[LStr "aa"%string; LStr "b"%string; LStr "c"%string]]); y1 ← make (Nda DStr (Arr [3; 1] [VStr "x"%string; VStr "y"%string; VStr "z"%string])) (Some [[LStr "a"%string; LStr "b"%string; LStr "cc"%string]; [LInt 1%Z]]); y2 ← make (Nda DFloat (Arr [3; 2] [VFloat (num_of_Z 1%Z); VFloat (num_of_Z 2%Z); VFloat (num_of_Z 3%Z); VFloat (num_of_Z 4%Z); VFloat (num_of_Z 5%Z); VFloat (num_of_Z 6%Z)])) (Some [[LStr "a"%string; LStr "b"%string; LStr "c"%string]; [LInt 1%Z; LInt 2%Z]]); align_axis [y0; y1; y2] [0%Z; 0%Z; 0%Z] JRight); of_opt IndexError (l !! 2)) (make (Nda DFloat (Arr [3; 2] [VFloat (num_of_Z 1%Z); VFloat (num_of_Z 2%Z); VFloat (num_of_Z 3%Z); VFloat (num_of_Z 4%Z); VFloat (num_of_Z 5%Z); VFloat (num_of_Z 6%Z)])) (Some [[LStr "a"%string; LStr "b"%string; LStr "c"%string]; [LInt 1%Z; LInt 2%Z]]))) &&
  (larry_same (l ← (y0 ← make (Nda DInt (Arr [3] [VInt 50%Z; VInt 51%Z; VInt 52%Z])) (Some [[LStr "aa"%string; LStr "b"%string; LStr "c"%string]]); y1 ← make (Nda DStr (Arr [3; 1] [VStr "x"%string; VStr "y"%string; VStr "z"%string])) (Some [[LStr "a"%string; LStr "b"%string; LStr "cc"%string]; [LInt 1%Z]]); y2 ← make (Nda DFloat (Arr [3; 2] [VFloat (num_of_Z 1%Z); VFloat (num_of_Z 2%Z); VFloat (num_of_Z 3%Z); VFloat (num_of_Z 4%Z); VFloat (num_of_Z 5%Z); VFloat (num_of_Z 6%Z)])) (Some [[LStr "a"%string; LStr "b"%string; LStr "c"%string]; [LInt 1%Z; LInt 2%Z]]); align_axis [y0; y1; y2] [0%Z; 0%Z; 0%Z] JRight); of_opt IndexError (l !! 1)) (make (Nda DStr (Arr [3; 1] [VStr "x"%string; VStr "y"%string; VStr ""%string])) (Some [[LStr "a"%string; LStr "b"%string; LStr "c"%string]; [LInt 1%Z]]))) &&
  (larry_same (l ← (y0 ← make (Nda DInt (Arr [3] [VInt 50%Z; VInt 51%Z; VInt 52%Z])) (Some [[LStr "aa"%string; LStr "b"%string; LStr "c"%string]]); y1 ← make (Nda DStr (Arr [3; 1] [VStr "x"%string; VStr "y"%string; VStr "z"%string])) (Some [[LStr "a"%string; LStr "b"%string; LStr "cc"%string]; [LInt 1%Z]]); y2 ← make (Nda DFloat (Arr [3; 2] [VFloat (num_of_Z 1%Z); VFloat (num_of_Z 2%Z); VFloat (num_of_Z 3%Z); VFloat (num_of_Z 4%Z); VFloat (num_of_Z 5%Z); VFloat (num_of_Z 6%Z)])) (Some [[LStr "a"%string; LStr "b"%string; LStr "c"%string]; [LInt 1%Z; LInt 2%Z]]); align_axis [y0; y1; y2] [0%Z; 0%Z; 0%Z] JRight); of_opt IndexError (l !! 0)) (make (Nda DFloat (Arr [3] [VFloat (NaN); VFloat (num_of_Z 51%Z); VFloat (num_of_Z 52%Z)])) (Some [[LStr "a"%string; LStr "b"%string; LStr "c"%string]]))) = true.
Proof. by vm_compute. Qed.
(** la/tests/flarry_test.py:644 *)
Example flarry__Test_align_axis__test_align_axis_9 :
  (larry_same (l ← (y0 ← y ← make (Nda DFloat (Arr [3; 2] [VFloat (num_of_Z 1%Z); VFloat (num_of_Z 2%Z); VFloat (num_of_Z 3%Z); VFloat (num_of_Z 4%Z); VFloat (num_of_Z 5%Z); VFloat (num_of_Z 6%Z)])) (Some [[LStr "a"%string; LStr "b"%string; LStr "c"%string]; [LInt 1%Z; LInt 2%Z]]); larry_T y; y1 ← make (Nda DStr (Arr [3; 1] [VStr "x"%string; VStr "y"%string; VStr "z"%string])) (Some [[LStr "a"%string; LStr "b"%string; LStr "cc"%string]; [LInt 1%Z]]); y2 ← make (Nda DInt (Arr [3] [VInt 50%Z; VInt 51%Z; VInt 52%Z])) (Some [[LStr "aa"%string; LStr "b"%string; LStr "c"%string]]); align_axis [y0; y1; y2] [1%Z; 0%Z; 0%Z] JLeft); of_opt IndexError (l !! 0)) (y ← make (Nda DFloat (Arr [3; 2] [VFloat (num_of_Z 1%Z); VFloat (num_of_Z 2%Z); VFloat (num_of_Z 3%Z); VFloat (num_of_Z 4%Z); VFloat (num_of_Z 5%Z); VFloat (num_of_Z 6%Z)])) (Some [[LStr "a"%string; LStr "b"%string; LStr "c"%string]; [LInt 1%Z; LInt 2%Z]]); larry_T y)) &&
  (larry_same (l ← (y0 ← y ← make (Nda DFloat (Arr [3; 2] [VFloat (num_of_Z 1%Z); VFloat (num_of_Z 2%Z); VFloat (num_of_Z 3%Z); VFloat (num_of_Z 4%Z); VFloat (num_of_Z 5%Z); VFloat (num_of_Z 6%Z)])) (Some [[LStr "a"%string; LStr "b"%string; LStr "c"%string]; [LInt 1%Z; LInt 2%Z]]); larry_T y; y1 ← make (Nda DStr (Arr [3; 1] [VStr "x"%string; VStr "y"%string; VStr "z"%string])) (Some [[LStr "a"%string; LStr "b"%string; LStr "cc"%string]; [LInt 1%Z]]); y2 ← make (Nda DInt (Arr [3] [VInt 50%Z; VInt 51%Z; VInt 52%Z])) (Some [[LStr "aa"%string; LStr "b"%string; LStr "c"%string]]); align_axis [y0; y1; y2] [1%Z; 0%Z; 0%Z] JLeft); of_opt IndexError (l !! 1)) (make (Nda DStr (Arr [3; 1] [VStr "x"%string; VStr "y"%string; VStr ""%string])) (Some [[LStr "a"%string; LStr "b"%string; LStr "c"%string]; [LInt 1%Z]]))) &&
  (larry_same (l ← (y0 ← y ← make (Nda DFloat (Arr [3; 2] [VFloat (num_of_Z 1%Z); VFloat (num_of_Z 2%Z); VFloat (num_of_Z 3%Z); VFloat (num_of_Z 4%Z); VFloat (num_of_Z 5%Z); VFloat (num_of_Z 6%Z)])) (Some [[LStr "a"%string; LStr "b"%string; LStr "c"%string]; [LInt 1%Z; LInt 2%Z]]); larry_T y; y1 ← make (Nda DStr (Arr [3; 1] [VStr "x"%string; VStr "y"%string; VStr "z"%string])) (Some [[LStr "a"%string; LStr "b"%string; LStr "cc"%string]; [LInt 1%Z]]); y2 ← make (Nda DInt (Arr [3] [VInt 50%Z; VInt 51%Z; VInt 52%Z])) (Some [[LStr "aa"%string; LStr "b"%string; LStr "c"%string]]); align_axis [y0; y1; y2] [1%Z; 0%Z; 0%Z] JLeft); of_opt IndexError (l !! 2)) (make (Nda DFloat (Arr [3] [VFloat (NaN); VFloat (num_of_Z 51%Z); VFloat (num_of_Z 52%Z)])) (Some [[LStr "a"%string; LStr "b"%string; LStr "c"%string]]))) = true.
Proof. by vm_compute. Qed.
(** la/tests/flarry_test.py:667 *)
Example flarry__Test_quick_inst__test_lrange_1 :
  (larry_same (lrange (Some [5]) None (VInt 0%Z) (VInt 1%Z) None) (make (Nda DInt (Arr [5] [VInt 0%Z; VInt 1%Z; VInt 2%Z; VInt 3%Z; VInt 4%Z])) None)) = true.
Proof. by vm_compute. Qed.
(** la/tests/flarry_test.py:672 *)
Example flarry__Test_quick_inst__test_lrange_2 :
  (larry_same (lrange None (Some [[LStr "a"%string; LStr "b"%string; LStr "c"%string; LStr "d"%string]]) (VInt 0%Z) (VInt 1%Z) None) (make (Nda DInt (Arr [4] [VInt 0%Z; VInt 1%Z; VInt 2%Z; VInt 3%Z])) (Some [[LStr "a"%string; LStr "b"%string; LStr "c"%string; LStr "d"%string]]))) = true.
Proof. by vm_compute. Qed.
(** la/tests/flarry_test.py:682 *)
Example flarry__Test_quick_inst__test_lrange_4 :
  (larry_same (lrange None (Some [[LStr "a"%string; LStr "b"%string]; [LStr "c"%string; LStr "d"%string]]) (VInt 0%Z) (VInt 1%Z) None) (make (Nda DInt (Arr [2; 2] [VInt 0%Z; VInt 1%Z; VInt 2%Z; VInt 3%Z])) (Some [[LStr "a"%string; LStr "b"%string]; [LStr "c"%string; LStr "d"%string]]))) = true.
Proof. by vm_compute. Qed.
(** la/tests/flarry_test.py:736 *)
Example flarry__Test_binaryop__test_binaryop_01 :
  (larry_same (y ← make (Nda DInt (Arr [2] [VInt 1%Z; VInt 2%Z])) None; z ← make (Nda DInt (Arr [3] [VInt 1%Z; VInt 2%Z; VInt 3%Z])) None; bin_larry (binaryop (np_arith AAdd) y z (JOne JInner) true None None)) (make (Nda DInt (Arr [2] [VInt 2%Z; VInt 4%Z])) None)) &&
  (larry_same (y ← make (Nda DInt (Arr [2] [VInt 1%Z; VInt 2%Z])) None; z ← make (Nda DInt (Arr [3] [VInt 1%Z; VInt 2%Z; VInt 3%Z])) None; bin_larry (binaryop (np_arith AAdd) y z (JOne JInner) true None None)) (make (Nda DInt (Arr [2] [VInt 2%Z; VInt 4%Z])) None)) = true.
Proof. by vm_compute. Qed.
(** la/tests/flarry_test.py:746 *)
Example flarry__Test_binaryop__test_binaryop_02 :
  (larry_same (y ← make (Nda DInt (Arr [2] [VInt 1%Z; VInt 2%Z])) None; z ← make (Nda DInt (Arr [3] [VInt 1%Z; VInt 2%Z; VInt 3%Z])) None; bin_larry (binaryop (np_arith AAdd) y z (JOne JInner) true None None)) (make (Nda DInt (Arr [2] [VInt 2%Z; VInt 4%Z])) None)) &&
  (larry_same (y ← make (Nda DInt (Arr [2] [VInt 1%Z; VInt 2%Z])) None; z ← make (Nda DInt (Arr [3] [VInt 1%Z; VInt 2%Z; VInt 3%Z])) None; bin_larry (binaryop (np_arith AAdd) y z (JOne JInner) true None None)) (make (Nda DInt (Arr [2] [VInt 2%Z; VInt 4%Z])) None)) = true.
Proof. by vm_compute. Qed.
(** la/tests/flarry_test.py:756 *)
Example flarry__Test_binaryop__test_binaryop_03 :
  (larry_same (y ← make (Nda DInt (Arr [2] [VInt 1%Z; VInt 2%Z])) None; z ← make (Nda DInt (Arr [3] [VInt 1%Z; VInt 2%Z; VInt 3%Z])) None; bin_larry (binaryop (np_arith AAdd) y z (JOne JInner) true (Some (VInt 0%Z)) None)) (make (Nda DInt (Arr [2] [VInt 2%Z; VInt 4%Z])) None)) &&
  (larry_same (y ← make (Nda DInt (Arr [2] [VInt 1%Z; VInt 2%Z])) None; z ← make (Nda DInt (Arr [3] [VInt 1%Z; VInt 2%Z; VInt 3%Z])) None; bin_larry (binaryop (np_arith AAdd) y z (JOne JInner) true (Some (VInt 0%Z)) None)) (make (Nda DInt (Arr [2] [VInt 2%Z; VInt 4%Z])) None)) = true.
Proof. by vm_compute. Qed.
(** la/tests/flarry_test.py:766 *)
Example flarry__Test_binaryop__test_binaryop_04 :
  (larry_same (y ← make (Nda DInt (Arr [2] [VInt 1%Z; VInt 2%Z])) None; z ← make (Nda DInt (Arr [3] [VInt 1%Z; VInt 2%Z; VInt 3%Z])) None; bin_larry (binaryop (np_arith AAdd) y z (JOne JInner) true (Some (VInt 0%Z)) (Some (VInt 0%Z)))) (make (Nda DInt (Arr [2] [VInt 2%Z; VInt 4%Z])) None)) &&
  (larry_same (y ← make (Nda DInt (Arr [2] [VInt 1%Z; VInt 2%Z])) None; z ← make (Nda DInt (Arr [3] [VInt 1%Z; VInt 2%Z; VInt 3%Z])) None; bin_larry (binaryop (np_arith AAdd) y z (JOne JInner) true (Some (VInt 0%Z)) (Some (VInt 0%Z)))) (make (Nda DInt (Arr [2] [VInt 2%Z; VInt 4%Z])) None)) = true.
Proof. by vm_compute. Qed.
(** la/tests/flarry_test.py:776 *)
Example flarry__Test_binaryop__test_binaryop_05 :
  (larry_same (y ← make (Nda DInt (Arr [2] [VInt 1%Z; VInt 2%Z])) None; z ← make (Nda DInt (Arr [3] [VInt 1%Z; VInt 2%Z; VInt 3%Z])) None; bin_larry (binaryop (np_arith AAdd) y z (JOne JInner) true None (Some (VInt 0%Z)))) (make (Nda DInt (Arr [2] [VInt 2%Z; VInt 4%Z])) None)) &&
  (larry_same (y ← make (Nda DInt (Arr [2] [VInt 1%Z; VInt 2%Z])) None; z ← make (Nda DInt (Arr [3] [VInt 1%Z; VInt 2%Z; VInt 3%Z])) None; bin_larry (binaryop (np_arith AAdd) y z (JOne JInner) true None (Some (VInt 0%Z)))) (make (Nda DInt (Arr [2] [VInt 2%Z; VInt 4%Z])) None)) = true.
Proof. by vm_compute. Qed.
(** la/tests/flarry_test.py:786 *)
Example flarry__Test_binaryop__test_binaryop_06 :
  (larry_same (y ← make (Nda DInt (Arr [2] [VInt 1%Z; VInt 2%Z])) None; z ← make (Nda DInt (Arr [3] [VInt 1%Z; VInt 2%Z; VInt 3%Z])) None; bin_larry (binaryop (np_arith AAdd) y z (JOne JOuter) true None None)) (make (Nda DFloat (Arr [3] [VFloat (num_of_Z 2%Z); VFloat (num_of_Z 4%Z); VFloat (NaN)])) None)) &&
  (larry_same (y ← make (Nda DInt (Arr [2] [VInt 1%Z; VInt 2%Z])) None; z ← make (Nda DInt (Arr [3] [VInt 1%Z; VInt 2%Z; VInt 3%Z])) None; bin_larry (binaryop (np_arith AAdd) y z (JOne JOuter) true None None)) (make (Nda DFloat (Arr [3] [VFloat (num_of_Z 2%Z); VFloat (num_of_Z 4%Z); VFloat (NaN)])) None)) = true.
Proof. by vm_compute. Qed.
(** la/tests/flarry_test.py:796 *)
Example flarry__Test_binaryop__test_binaryop_07 :
  (larry_same (y ← make (Nda DInt (Arr [2] [VInt 1%Z; VInt 2%Z])) None; z ← make (Nda DInt (Arr [3] [VInt 1%Z; VInt 2%Z; VInt 3%Z])) None; bin_larry (binaryop (np_arith AAdd) y z (JOne JOuter) true (Some (VInt 0%Z)) None)) (make (Nda DFloat (Arr [3] [VFloat (num_of_Z 2%Z); VFloat (num_of_Z 4%Z); VFloat (num_of_Z 3%Z)])) None)) &&
  (larry_same (y ← make (Nda DInt (Arr [2] [VInt 1%Z; VInt 2%Z])) None; z ← make (Nda DInt (Arr [3] [VInt 1%Z; VInt 2%Z; VInt 3%Z])) None; bin_larry (binaryop (np_arith AAdd) y z (JOne JOuter) true (Some (VInt 0%Z)) None)) (make (Nda DFloat (Arr [3] [VFloat (num_of_Z 2%Z); VFloat (num_of_Z 4%Z); VFloat (num_of_Z 3%Z)])) None)) = true.
Proof. by vm_compute. Qed.
(** la/tests/flarry_test.py:806 *)
Example flarry__Test_binaryop__test_binaryop_08 :
  (larry_same (y ← make (Nda DInt (Arr [2] [VInt 1%Z; VInt 2%Z])) None; z ← make (Nda DInt (Arr [3] [VInt 1%Z; VInt 2%Z; VInt 3%Z])) None; bin_larry (binaryop (np_arith AAdd) y z (JOne JOuter) true (Some (VInt 0%Z)) (Some (VInt 0%Z)))) (make (Nda DFloat (Arr [3] [VFloat (num_of_Z 2%Z); VFloat (num_of_Z 4%Z); VFloat (num_of_Z 3%Z)])) None)) &&
  (larry_same (y ← make (Nda DInt (Arr [2] [VInt 1%Z; VInt 2%Z])) None; z ← make (Nda DInt (Arr [3] [VInt 1%Z; VInt 2%Z; VInt 3%Z])) None; bin_larry (binaryop (np_arith AAdd) y z (JOne JOuter) true (Some (VInt 0%Z)) (Some (VInt 0%Z)))) (make (Nda DFloat (Arr [3] [VFloat (num_of_Z 2%Z); VFloat (num_of_Z 4%Z); VFloat (num_of_Z 3%Z)])) None)) = true.
Proof. by vm_compute. Qed.
(** la/tests/flarry_test.py:816 *)
Example flarry__Test_binaryop__test_binaryop_09 :
  (larry_same (y ← make (Nda DInt (Arr [2] [VInt 1%Z; VInt 2%Z])) None; z ← make (Nda DInt (Arr [3] [VInt 1%Z; VInt 2%Z; VInt 3%Z])) None; bin_larry (binaryop (np_arith AAdd) y z (JOne JOuter) true None (Some (VInt 0%Z)))) (make (Nda DFloat (Arr [3] [VFloat (num_of_Z 2%Z); VFloat (num_of_Z 4%Z); VFloat (NaN)])) None)) &&
  (larry_same (y ← make (Nda DInt (Arr [2] [VInt 1%Z; VInt 2%Z])) None; z ← make (Nda DInt (Arr [3] [VInt 1%Z; VInt 2%Z; VInt 3%Z])) None; bin_larry (binaryop (np_arith AAdd) y z (JOne JOuter) true None (Some (VInt 0%Z)))) (make (Nda DFloat (Arr [3] [VFloat (num_of_Z 2%Z); VFloat (num_of_Z 4%Z); VFloat (NaN)])) None)) = true.
Proof. by vm_compute. Qed.
(** la/tests/flarry_test.py:826 *)
Example flarry__Test_binaryop__test_binaryop_10 :
  (larry_same (y ← make (Nda DInt (Arr [2] [VInt 1%Z; VInt 2%Z])) None; z ← make (Nda DInt (Arr [3] [VInt 1%Z; VInt 2%Z; VInt 3%Z])) None; bin_larry (binaryop (np_arith AAdd) y z (JOne JLeft) true None None)) (make (Nda DInt (Arr [2] [VInt 2%Z; VInt 4%Z])) None)) &&
  (larry_same (y ← make (Nda DInt (Arr [2] [VInt 1%Z; VInt 2%Z])) None; z ← make (Nda DInt (Arr [3] [VInt 1%Z; VInt 2%Z; VInt 3%Z])) None; bin_larry (binaryop (np_arith AAdd) y z (JOne JLeft) true None None)) (make (Nda DInt (Arr [2] [VInt 2%Z; VInt 4%Z])) None)) = true.
Proof. by vm_compute. Qed.
(** la/tests/flarry_test.py:836 *)
Example flarry__Test_binaryop__test_binaryop_11 :
  (larry_same (y ← make (Nda DInt (Arr [2] [VInt 1%Z; VInt 2%Z])) None; z ← make (Nda DInt (Arr [3] [VInt 1%Z; VInt 2%Z; VInt 3%Z])) None; bin_larry (binaryop (np_arith AAdd) y z (JOne JLeft) true (Some (VInt 0%Z)) None)) (make (Nda DInt (Arr [2] [VInt 2%Z; VInt 4%Z])) None)) &&
  (larry_same (y ← make (Nda DInt (Arr [2] [VInt 1%Z; VInt 2%Z])) None; z ← make (Nda DInt (Arr [3] [VInt 1%Z; VInt 2%Z; VInt 3%Z])) None; bin_larry (binaryop (np_arith AAdd) y z (JOne JLeft) true (Some (VInt 0%Z)) None)) (make (Nda DInt (Arr [2] [VInt 2%Z; VInt 4%Z])) None)) = true.
Proof. by vm_compute. Qed.
(** la/tests/flarry_test.py:846 *)
Example flarry__Test_binaryop__test_binaryop_12 :
  (larry_same (y ← make (Nda DInt (Arr [2] [VInt 1%Z; VInt 2%Z])) None; z ← make (Nda DInt (Arr [3] [VInt 1%Z; VInt 2%Z; VInt 3%Z])) None; bin_larry (binaryop (np_arith AAdd) y z (JOne JLeft) true (Some (VInt 0%Z)) (Some (VInt 0%Z)))) (make (Nda DInt (Arr [2] [VInt 2%Z; VInt 4%Z])) None)) &&
  (larry_same (y ← make (Nda DInt (Arr [2] [VInt 1%Z; VInt 2%Z])) None; z ← make (Nda DInt (Arr [3] [VInt 1%Z; VInt 2%Z; VInt 3%Z])) None; bin_larry (binaryop (np_arith AAdd) y z (JOne JLeft) true (Some (VInt 0%Z)) (Some (VInt 0%Z)))) (make (Nda DInt (Arr [2] [VInt 2%Z; VInt 4%Z])) None)) = true.
Proof. by vm_compute. Qed.
(** la/tests/flarry_test.py:856 *)
Example flarry__Test_binaryop__test_binaryop_13 :
  (larry_same (y ← make (Nda DInt (Arr [2] [VInt 1%Z; VInt 2%Z])) None; z ← make (Nda DInt (Arr [3] [VInt 1%Z; VInt 2%Z; VInt 3%Z])) None; bin_larry (binaryop (np_arith AAdd) y z (JOne JRight) true None None)) (make (Nda DFloat (Arr [3] [VFloat (num_of_Z 2%Z); VFloat (num_of_Z 4%Z); VFloat (NaN)])) None)) &&
  (larry_same (y ← make (Nda DInt (Arr [2] [VInt 1%Z; VInt 2%Z])) None; z ← make (Nda DInt (Arr [3] [VInt 1%Z; VInt 2%Z; VInt 3%Z])) None; bin_larry (binaryop (np_arith AAdd) y z (JOne JRight) true None None)) (make (Nda DFloat (Arr [3] [VFloat (num_of_Z 2%Z); VFloat (num_of_Z 4%Z); VFloat (NaN)])) None)) = true.
Proof. by vm_compute. Qed.
(** la/tests/flarry_test.py:866 *)
Example flarry__Test_binaryop__test_binaryop_14 :
  (larry_same (y ← make (Nda DInt (Arr [2] [VInt 1%Z; VInt 2%Z])) None; z ← make (Nda DInt (Arr [3] [VInt 1%Z; VInt 2%Z; VInt 3%Z])) None; bin_larry (binaryop (np_arith AAdd) y z (JOne JRight) true (Some (VInt 0%Z)) None)) (make (Nda DFloat (Arr [3] [VFloat (num_of_Z 2%Z); VFloat (num_of_Z 4%Z); VFloat (num_of_Z 3%Z)])) None)) &&
  (larry_same (y ← make (Nda DInt (Arr [2] [VInt 1%Z; VInt 2%Z])) None; z ← make (Nda DInt (Arr [3] [VInt 1%Z; VInt 2%Z; VInt 3%Z])) None; bin_larry (binaryop (np_arith AAdd) y z (JOne JRight) true (Some (VInt 0%Z)) None)) (make (Nda DFloat (Arr [3] [VFloat (num_of_Z 2%Z); VFloat (num_of_Z 4%Z); VFloat (num_of_Z 3%Z)])) None)) = true.
Proof. by vm_compute. Qed.
(** la/tests/flarry_test.py:876 *)
Example flarry__Test_binaryop__test_binaryop_15 :
  (larry_same (y ← make (Nda DInt (Arr [2] [VInt 1%Z; VInt 2%Z])) None; z ← make (Nda DInt (Arr [3] [VInt 1%Z; VInt 2%Z; VInt 3%Z])) None; bin_larry (binaryop (np_arith AAdd) y z (JOne JRight) true (Some (VInt 0%Z)) (Some (VInt 0%Z)))) (make (Nda DFloat (Arr [3] [VFloat (num_of_Z 2%Z); VFloat (num_of_Z 4%Z); VFloat (num_of_Z 3%Z)])) None)) &&
  (larry_same (y ← make (Nda DInt (Arr [2] [VInt 1%Z; VInt 2%Z])) None; z ← make (Nda DInt (Arr [3] [VInt 1%Z; VInt 2%Z; VInt 3%Z])) None; bin_larry (binaryop (np_arith AAdd) y z (JOne JRight) true (Some (VInt 0%Z)) (Some (VInt 0%Z)))) (make (Nda DFloat (Arr [3] [VFloat (num_of_Z 2%Z); VFloat (num_of_Z 4%Z); VFloat (num_of_Z 3%Z)])) None)) = true.
Proof. by vm_compute. Qed.
(** la/tests/flarry_test.py:886 *)
Example flarry__Test_binaryop__test_binaryop_16 :
  (larry_same (y ← make (Nda DInt (Arr [2] [VInt 1%Z; VInt 2%Z])) None; z ← make (Nda DInt (Arr [3] [VInt 1%Z; VInt 2%Z; VInt 3%Z])) None; bin_larry (binaryop (np_arith AAdd) y z (JOne JRight) true None (Some (VInt 0%Z)))) (make (Nda DFloat (Arr [3] [VFloat (num_of_Z 2%Z); VFloat (num_of_Z 4%Z); VFloat (NaN)])) None)) &&
  (larry_same (y ← make (Nda DInt (Arr [2] [VInt 1%Z; VInt 2%Z])) None; z ← make (Nda DInt (Arr [3] [VInt 1%Z; VInt 2%Z; VInt 3%Z])) None; bin_larry (binaryop (np_arith AAdd) y z (JOne JRight) true None (Some (VInt 0%Z)))) (make (Nda DFloat (Arr [3] [VFloat (num_of_Z 2%Z); VFloat (num_of_Z 4%Z); VFloat (NaN)])) None)) = true.
Proof. by vm_compute. Qed.
(** la/tests/flarry_test.py:896 *)
Example flarry__Test_binaryop__test_binaryop_17 :
  (larry_same (y ← make (Nda DFloat (Arr [4] [VFloat (num_of_Z 1%Z); VFloat (NaN); VFloat (NaN); VFloat (num_of_Z 1%Z)])) None; z ← make (Nda DFloat (Arr [4] [VFloat (num_of_Z 1%Z); VFloat (num_of_Z 1%Z); VFloat (NaN); VFloat (num_of_Z 1%Z)])) (Some [[LInt 0%Z; LInt 1%Z; LInt 2%Z; LStr "a"%string]]); bin_larry (binaryop (np_arith AAdd) y z (JOne JInner) true None None)) (make (Nda DFloat (Arr [3] [VFloat (num_of_Z 2%Z); VFloat (NaN); VFloat (NaN)])) (Some [[LInt 0%Z; LInt 1%Z; LInt 2%Z]]))) &&
  (larry_same (y ← make (Nda DFloat (Arr [4] [VFloat (num_of_Z 1%Z); VFloat (NaN); VFloat (NaN); VFloat (num_of_Z 1%Z)])) None; z ← make (Nda DFloat (Arr [4] [VFloat (num_of_Z 1%Z); VFloat (num_of_Z 1%Z); VFloat (NaN); VFloat (num_of_Z 1%Z)])) (Some [[LInt 0%Z; LInt 1%Z; LInt 2%Z; LStr "a"%string]]); bin_larry (binaryop (np_arith AAdd) y z (JOne JInner) true None None)) (make (Nda DFloat (Arr [3] [VFloat (num_of_Z 2%Z); VFloat (NaN); VFloat (NaN)])) (Some [[LInt 0%Z; LInt 1%Z; LInt 2%Z]]))) = true.
Proof. by vm_compute. Qed.
(** la/tests/flarry_test.py:906 *)
Example flarry__Test_binaryop__test_binaryop_18 :
  (larry_same (y ← make (Nda DFloat (Arr [4] [VFloat (num_of_Z 1%Z); VFloat (NaN); VFloat (NaN); VFloat (num_of_Z 1%Z)])) None; z ← make (Nda DFloat (Arr [4] [VFloat (num_of_Z 1%Z); VFloat (num_of_Z 1%Z); VFloat (NaN); VFloat (num_of_Z 1%Z)])) (Some [[LInt 0%Z; LInt 1%Z; LInt 2%Z; LInt 9%Z]]); bin_larry (binaryop (np_arith AAdd) y z (JOne JOuter) true None None)) (make (Nda DFloat (Arr [5] [VFloat (num_of_Z 2%Z); VFloat (NaN); VFloat (NaN); VFloat (NaN); VFloat (NaN)])) (Some [[LInt 0%Z; LInt 1%Z; LInt 2%Z; LInt 3%Z; LInt 9%Z]]))) &&
  (larry_same (y ← make (Nda DFloat (Arr [4] [VFloat (num_of_Z 1%Z); VFloat (NaN); VFloat (NaN); VFloat (num_of_Z 1%Z)])) None; z ← make (Nda DFloat (Arr [4] [VFloat (num_of_Z 1%Z); VFloat (num_of_Z 1%Z); VFloat (NaN); VFloat (num_of_Z 1%Z)])) (Some [[LInt 0%Z; LInt 1%Z; LInt 2%Z; LInt 9%Z]]); bin_larry (binaryop (np_arith AAdd) y z (JOne JOuter) true None None)) (make (Nda DFloat (Arr [5] [VFloat (num_of_Z 2%Z); VFloat (NaN); VFloat (NaN); VFloat (NaN); VFloat (NaN)])) (Some [[LInt 0%Z; LInt 1%Z; LInt 2%Z; LInt 3%Z; LInt 9%Z]]))) = true.
Proof. by vm_compute. Qed.
(** la/tests/flarry_test.py:916 *)
Example flarry__Test_binaryop__test_binaryop_19 :
  (larry_same (y ← make (Nda DFloat (Arr [4] [VFloat (num_of_Z 1%Z); VFloat (NaN); VFloat (NaN); VFloat (num_of_Z 1%Z)])) None; z ← make (Nda DFloat (Arr [4] [VFloat (num_of_Z 1%Z); VFloat (num_of_Z 1%Z); VFloat (NaN); VFloat (num_of_Z 1%Z)])) (Some [[LInt 0%Z; LInt 1%Z; LInt 2%Z; LInt 9%Z]]); bin_larry (binaryop (np_arith AAdd) y z (JOne JOuter) true (Some (VInt 0%Z)) None)) (make (Nda DFloat (Arr [5] [VFloat (num_of_Z 2%Z); VFloat (num_of_Z 1%Z); VFloat (NaN); VFloat (num_of_Z 1%Z); VFloat (num_of_Z 1%Z)])) (Some [[LInt 0%Z; LInt 1%Z; LInt 2%Z; LInt 3%Z; LInt 9%Z]]))) &&
  (larry_same (y ← make (Nda DFloat (Arr [4] [VFloat (num_of_Z 1%Z); VFloat (NaN); VFloat (NaN); VFloat (num_of_Z 1%Z)])) None; z ← make (Nda DFloat (Arr [4] [VFloat (num_of_Z 1%Z); VFloat (num_of_Z 1%Z); VFloat (NaN); VFloat (num_of_Z 1%Z)])) (Some [[LInt 0%Z; LInt 1%Z; LInt 2%Z; LInt 9%Z]]); bin_larry (binaryop (np_arith AAdd) y z (JOne JOuter) true (Some (VInt 0%Z)) None)) (make (Nda DFloat (Arr [5] [VFloat (num_of_Z 2%Z); VFloat (num_of_Z 1%Z); VFloat (NaN); VFloat (num_of_Z 1%Z); VFloat (num_of_Z 1%Z)])) (Some [[LInt 0%Z; LInt 1%Z; LInt 2%Z; LInt 3%Z; LInt 9%Z]]))) = true.
Proof. by vm_compute. Qed.
(** la/tests/flarry_test.py:926 *)
Example flarry__Test_binaryop__test_binaryop_20 :
  (larry_same (y ← make (Nda DFloat (Arr [4] [VFloat (num_of_Z 1%Z); VFloat (NaN); VFloat (NaN); VFloat (num_of_Z 1%Z)])) None; z ← make (Nda DFloat (Arr [4] [VFloat (num_of_Z 1%Z); VFloat (num_of_Z 1%Z); VFloat (NaN); VFloat (num_of_Z 1%Z)])) (Some [[LInt 0%Z; LInt 1%Z; LInt 2%Z; LInt 9%Z]]); bin_larry (binaryop (np_arith AAdd) y z (JOne JOuter) true (Some (VInt 0%Z)) (Some (VInt 0%Z)))) (make (Nda DFloat (Arr [5] [VFloat (num_of_Z 2%Z); VFloat (num_of_Z 1%Z); VFloat (num_of_Z 0%Z); VFloat (num_of_Z 1%Z); VFloat (num_of_Z 1%Z)])) (Some [[LInt 0%Z; LInt 1%Z; LInt 2%Z; LInt 3%Z; LInt 9%Z]]))) &&
  (larry_same (y ← make (Nda DFloat (Arr [4] [VFloat (num_of_Z 1%Z); VFloat (NaN); VFloat (NaN); VFloat (num_of_Z 1%Z)])) None; z ← make (Nda DFloat (Arr [4] [VFloat (num_of_Z 1%Z); VFloat (num_of_Z 1%Z); VFloat (NaN); VFloat (num_of_Z 1%Z)])) (Some [[LInt 0%Z; LInt 1%Z; LInt 2%Z; LInt 9%Z]]); bin_larry (binaryop (np_arith AAdd) y z (JOne JOuter) true (Some (VInt 0%Z)) (Some (VInt 0%Z)))) (make (Nda DFloat (Arr [5] [VFloat (num_of_Z 2%Z); VFloat (num_of_Z 1%Z); VFloat (num_of_Z 0%Z); VFloat (num_of_Z 1%Z); VFloat (num_of_Z 1%Z)])) (Some [[LInt 0%Z; LInt 1%Z; LInt 2%Z; LInt 3%Z; LInt 9%Z]]))) = true.
Proof. by vm_compute. Qed.
(** la/tests/flarry_test.py:963 *)
Example flarry__Test_add__test_add_01 :
  (larry_same (y ← make (Nda DInt (Arr [2] [VInt 1%Z; VInt 2%Z])) None; z ← make (Nda DInt (Arr [3] [VInt 1%Z; VInt 2%Z; VInt 3%Z])) None; bin_larry (binaryop (np_arith AAdd) y z (JOne JInner) true None None)) (make (Nda DInt (Arr [2] [VInt 2%Z; VInt 4%Z])) None)) &&
  (larry_same (y ← make (Nda DInt (Arr [2] [VInt 1%Z; VInt 2%Z])) None; z ← make (Nda DInt (Arr [3] [VInt 1%Z; VInt 2%Z; VInt 3%Z])) None; bin_larry (binaryop (np_arith AAdd) y z (JOne JInner) true None None)) (make (Nda DInt (Arr [2] [VInt 2%Z; VInt 4%Z])) None)) = true.
Proof. by vm_compute. Qed.
(** la/tests/flarry_test.py:973 *)
Example flarry__Test_add__test_add_02 :
  (larry_same (y ← make (Nda DInt (Arr [2] [VInt 1%Z; VInt 2%Z])) None; z ← make (Nda DInt (Arr [3] [VInt 1%Z; VInt 2%Z; VInt 3%Z])) None; bin_larry (binaryop (np_arith AAdd) y z (JOne JInner) true None None)) (make (Nda DInt (Arr [2] [VInt 2%Z; VInt 4%Z])) None)) &&
  (larry_same (y ← make (Nda DInt (Arr [2] [VInt 1%Z; VInt 2%Z])) None; z ← make (Nda DInt (Arr [3] [VInt 1%Z; VInt 2%Z; VInt 3%Z])) None; bin_larry (binaryop (np_arith AAdd) y z (JOne JInner) true None None)) (make (Nda DInt (Arr [2] [VInt 2%Z; VInt 4%Z])) None)) = true.
Proof. by vm_compute. Qed.
(** la/tests/flarry_test.py:983 *)
Example flarry__Test_add__test_add_03 :
  (larry_same (y ← make (Nda DInt (Arr [2] [VInt 1%Z; VInt 2%Z])) None; z ← make (Nda DInt (Arr [3] [VInt 1%Z; VInt 2%Z; VInt 3%Z])) None; bin_larry (binaryop (np_arith AAdd) y z (JOne JInner) true (Some (VInt 0%Z)) None)) (make (Nda DInt (Arr [2] [VInt 2%Z; VInt 4%Z])) None)) &&
  (larry_same (y ← make (Nda DInt (Arr [2] [VInt 1%Z; VInt 2%Z])) None; z ← make (Nda DInt (Arr [3] [VInt 1%Z; VInt 2%Z; VInt 3%Z])) None; bin_larry (binaryop (np_arith AAdd) y z (JOne JInner) true (Some (VInt 0%Z)) None)) (make (Nda DInt (Arr [2] [VInt 2%Z; VInt 4%Z])) None)) = true.
Proof. by vm_compute. Qed.
(** la/tests/flarry_test.py:993 *)
Example flarry__Test_add__test_add_04 :
  (larry_same (y ← make (Nda DInt (Arr [2] [VInt 1%Z; VInt 2%Z])) None; z ← make (Nda DInt (Arr [3] [VInt 1%Z; VInt 2%Z; VInt 3%Z])) None; bin_larry (binaryop (np_arith AAdd) y z (JOne JInner) true (Some (VInt 0%Z)) (Some (VInt 0%Z)))) (make (Nda DInt (Arr [2] [VInt 2%Z; VInt 4%Z])) None)) &&
  (larry_same (y ← make (Nda DInt (Arr [2] [VInt 1%Z; VInt 2%Z])) None; z ← make (Nda DInt (Arr [3] [VInt 1%Z; VInt 2%Z; VInt 3%Z])) None; bin_larry (binaryop (np_arith AAdd) y z (JOne JInner) true (Some (VInt 0%Z)) (Some (VInt 0%Z)))) (make (Nda DInt (Arr [2] [VInt 2%Z; VInt 4%Z])) None)) = true.
Proof. by vm_compute. Qed.
(** la/tests/flarry_test.py:1003 *)
Example flarry__Test_add__test_add_05 :
  (larry_same (y ← make (Nda DInt (Arr [2] [VInt 1%Z; VInt 2%Z])) None; z ← make (Nda DInt (Arr [3] [VInt 1%Z; VInt 2%Z; VInt 3%Z])) None; bin_larry (binaryop (np_arith AAdd) y z (JOne JInner) true None (Some (VInt 0%Z)))) (make (Nda DInt (Arr [2] [VInt 2%Z; VInt 4%Z])) None)) &&
  (larry_same (y ← make (Nda DInt (Arr [2] [VInt 1%Z; VInt 2%Z])) None; z ← make (Nda DInt (Arr [3] [VInt 1%Z; VInt 2%Z; VInt 3%Z])) None; bin_larry (binaryop (np_arith AAdd) y z (JOne JInner) true None (Some (VInt 0%Z)))) (make (Nda DInt (Arr [2] [VInt 2%Z; VInt 4%Z])) None)) = true.
Proof. by vm_compute. Qed.
(** la/tests/flarry_test.py:1013 *)
Example flarry__Test_add__test_add_06 :
  (larry_same (y ← make (Nda DInt (Arr [2] [VInt 1%Z; VInt 2%Z])) None; z ← make (Nda DInt (Arr [3] [VInt 1%Z; VInt 2%Z; VInt 3%Z])) None; bin_larry (binaryop (np_arith AAdd) y z (JOne JOuter) true None None)) (make (Nda DFloat (Arr [3] [VFloat (num_of_Z 2%Z); VFloat (num_of_Z 4%Z); VFloat (NaN)])) None)) &&
  (larry_same (y ← make (Nda DInt (Arr [2] [VInt 1%Z; VInt 2%Z])) None; z ← make (Nda DInt (Arr [3] [VInt 1%Z; VInt 2%Z; VInt 3%Z])) None; bin_larry (binaryop (np_arith AAdd) y z (JOne JOuter) true None None)) (make (Nda DFloat (Arr [3] [VFloat (num_of_Z 2%Z); VFloat (num_of_Z 4%Z); VFloat (NaN)])) None)) = true.
Proof. by vm_compute. Qed.
(** la/tests/flarry_test.py:1023 *)
Example flarry__Test_add__test_add_07 :
  (larry_same (y ← make (Nda DInt (Arr [2] [VInt 1%Z; VInt 2%Z])) None; z ← make (Nda DInt (Arr [3] [VInt 1%Z; VInt 2%Z; VInt 3%Z])) None; bin_larry (binaryop (np_arith AAdd) y z (JOne JOuter) true (Some (VInt 0%Z)) None)) (make (Nda DFloat (Arr [3] [VFloat (num_of_Z 2%Z); VFloat (num_of_Z 4%Z); VFloat (num_of_Z 3%Z)])) None)) &&
  (larry_same (y ← make (Nda DInt (Arr [2] [VInt 1%Z; VInt 2%Z])) None; z ← make (Nda DInt (Arr [3] [VInt 1%Z; VInt 2%Z; VInt 3%Z])) None; bin_larry (binaryop (np_arith AAdd) y z (JOne JOuter) true (Some (VInt 0%Z)) None)) (make (Nda DFloat (Arr [3] [VFloat (num_of_Z 2%Z); VFloat (num_of_Z 4%Z); VFloat (num_of_Z 3%Z)])) None)) = true.
Proof. by vm_compute. Qed.
(** la/tests/flarry_test.py:1033 *)
Example flarry__Test_add__test_add_08 :
  (larry_same (y ← make (Nda DInt (Arr [2] [VInt 1%Z; VInt 2%Z])) None; z ← make (Nda DInt (Arr [3] [VInt 1%Z; VInt 2%Z; VInt 3%Z])) None; bin_larry (binaryop (np_arith AAdd) y z (JOne JOuter) true (Some (VInt 0%Z)) (Some (VInt 0%Z)))) (make (Nda DFloat (Arr [3] [VFloat (num_of_Z 2%Z); VFloat (num_of_Z 4%Z); VFloat (num_of_Z 3%Z)])) None)) &&
  (larry_same (y ← make (Nda DInt (Arr [2] [VInt 1%Z; VInt 2%Z])) None; z ← make (Nda DInt (Arr [3] [VInt 1%Z; VInt 2%Z; VInt 3%Z])) None; bin_larry (binaryop (np_arith AAdd) y z (JOne JOuter) true (Some (VInt 0%Z)) (Some (VInt 0%Z)))) (make (Nda DFloat (Arr [3] [VFloat (num_of_Z 2%Z); VFloat (num_of_Z 4%Z); VFloat (num_of_Z 3%Z)])) None)) = true.
Proof. by vm_compute. Qed.
(** la/tests/flarry_test.py:1043 *)
Example flarry__Test_add__test_add_09 :
  (larry_same (y ← make (Nda DInt (Arr [2] [VInt 1%Z; VInt 2%Z])) None; z ← make (Nda DInt (Arr [3] [VInt 1%Z; VInt 2%Z; VInt 3%Z])) None; bin_larry (binaryop (np_arith AAdd) y z (JOne JOuter) true None (Some (VInt 0%Z)))) (make (Nda DFloat (Arr [3] [VFloat (num_of_Z 2%Z); VFloat (num_of_Z 4%Z); VFloat (NaN)])) None)) &&
  (larry_same (y ← make (Nda DInt (Arr [2] [VInt 1%Z; VInt 2%Z])) None; z ← make (Nda DInt (Arr [3] [VInt 1%Z; VInt 2%Z; VInt 3%Z])) None; bin_larry (binaryop (np_arith AAdd) y z (JOne JOuter) true None (Some (VInt 0%Z)))) (make (Nda DFloat (Arr [3] [VFloat (num_of_Z 2%Z); VFloat (num_of_Z 4%Z); VFloat (NaN)])) None)) = true.
Proof. by vm_compute. Qed.
(** la/tests/flarry_test.py:1053 *)
Example flarry__Test_add__test_add_10 :
  (larry_same (y ← make (Nda DInt (Arr [2] [VInt 1%Z; VInt 2%Z])) None; z ← make (Nda DInt (Arr [3] [VInt 1%Z; VInt 2%Z; VInt 3%Z])) None; bin_larry (binaryop (np_arith AAdd) y z (JOne JLeft) true None None)) (make (Nda DInt (Arr [2] [VInt 2%Z; VInt 4%Z])) None)) &&
  (larry_same (y ← make (Nda DInt (Arr [2] [VInt 1%Z; VInt 2%Z])) None; z ← make (Nda DInt (Arr [3] [VInt 1%Z; VInt 2%Z; VInt 3%Z])) None; bin_larry (binaryop (np_arith AAdd) y z (JOne JLeft) true None None)) (make (Nda DInt (Arr [2] [VInt 2%Z; VInt 4%Z])) None)) = true.
Proof. by vm_compute. Qed.
(** la/tests/flarry_test.py:1063 *)
Example flarry__Test_add__test_add_11 :
  (larry_same (y ← make (Nda DInt (Arr [2] [VInt 1%Z; VInt 2%Z])) None; z ← make (Nda DInt (Arr [3] [VInt 1%Z; VInt 2%Z; VInt 3%Z])) None; bin_larry (binaryop (np_arith AAdd) y z (JOne JLeft) true (Some (VInt 0%Z)) None)) (make (Nda DInt (Arr [2] [VInt 2%Z; VInt 4%Z])) None)) &&
  (larry_same (y ← make (Nda DInt (Arr [2] [VInt 1%Z; VInt 2%Z])) None; z ← make (Nda DInt (Arr [3] [VInt 1%Z; VInt 2%Z; VInt 3%Z])) None; bin_larry (binaryop (np_arith AAdd) y z (JOne JLeft) true (Some (VInt 0%Z)) None)) (make (Nda DInt (Arr [2] [VInt 2%Z; VInt 4%Z])) None)) = true.
Proof. by vm_compute. Qed.
(** la/tests/flarry_test.py:1073 *)
Example flarry__Test_add__test_add_12 :
  (larry_same (y ← make (Nda DInt (Arr [2] [VInt 1%Z; VInt 2%Z])) None; z ← make (Nda DInt (Arr [3] [VInt 1%Z; VInt 2%Z; VInt 3%Z])) None; bin_larry (binaryop (np_arith AAdd) y z (JOne JLeft) true (Some (VInt 0%Z)) (Some (VInt 0%Z)))) (make (Nda DInt (Arr [2] [VInt 2%Z; VInt 4%Z])) None)) &&
  (larry_same (y ← make (Nda DInt (Arr [2] [VInt 1%Z; VInt 2%Z])) None; z ← make (Nda DInt (Arr [3] [VInt 1%Z; VInt 2%Z; VInt 3%Z])) None; bin_larry (binaryop (np_arith AAdd) y z (JOne JLeft) true (Some (VInt 0%Z)) (Some (VInt 0%Z)))) (make (Nda DInt (Arr [2] [VInt 2%Z; VInt 4%Z])) None)) = true.
Proof. by vm_compute. Qed.
(** la/tests/flarry_test.py:1083 *)
Example flarry__Test_add__test_add_13 :
  (larry_same (y ← make (Nda DInt (Arr [2] [VInt 1%Z; VInt 2%Z])) None; z ← make (Nda DInt (Arr [3] [VInt 1%Z; VInt 2%Z; VInt 3%Z])) None; bin_larry (binaryop (np_arith AAdd) y z (JOne JRight) true None None)) (make (Nda DFloat (Arr [3] [VFloat (num_of_Z 2%Z); VFloat (num_of_Z 4%Z); VFloat (NaN)])) None)) &&
  (larry_same (y ← make (Nda DInt (Arr [2] [VInt 1%Z; VInt 2%Z])) None; z ← make (Nda DInt (Arr [3] [VInt 1%Z; VInt 2%Z; VInt 3%Z])) None; bin_larry (binaryop (np_arith AAdd) y z (JOne JRight) true None None)) (make (Nda DFloat (Arr [3] [VFloat (num_of_Z 2%Z); VFloat (num_of_Z 4%Z); VFloat (NaN)])) None)) = true.
Proof. by vm_compute. Qed.
(** la/tests/flarry_test.py:1093 *)
Example flarry__Test_add__test_add_14 :
  (larry_same (y ← make (Nda DInt (Arr [2] [VInt 1%Z; VInt 2%Z])) None; z ← make (Nda DInt (Arr [3] [VInt 1%Z; VInt 2%Z; VInt 3%Z])) None; bin_larry (binaryop (np_arith AAdd) y z (JOne JRight) true (Some (VInt 0%Z)) None)) (make (Nda DFloat (Arr [3] [VFloat (num_of_Z 2%Z); VFloat (num_of_Z 4%Z); VFloat (num_of_Z 3%Z)])) None)) &&
  (larry_same (y ← make (Nda DInt (Arr [2] [VInt 1%Z; VInt 2%Z])) None; z ← make (Nda DInt (Arr [3] [VInt 1%Z; VInt 2%Z; VInt 3%Z])) None; bin_larry (binaryop (np_arith AAdd) y z (JOne JRight) true (Some (VInt 0%Z)) None)) (make (Nda DFloat (Arr [3] [VFloat (num_of_Z 2%Z); VFloat (num_of_Z 4%Z); VFloat (num_of_Z 3%Z)])) None)) = true.
Proof. by vm_compute. Qed.
(** la/tests/flarry_test.py:1103 *)
Example flarry__Test_add__test_add_15 :
  (larry_same (y ← make (Nda DInt (Arr [2] [VInt 1%Z; VInt 2%Z])) None; z ← make (Nda DInt (Arr [3] [VInt 1%Z; VInt 2%Z; VInt 3%Z])) None; bin_larry (binaryop (np_arith AAdd) y z (JOne JRight) true (Some (VInt 0%Z)) (Some (VInt 0%Z)))) (make (Nda DFloat (Arr [3] [VFloat (num_of_Z 2%Z); VFloat (num_of_Z 4%Z); VFloat (num_of_Z 3%Z)])) None)) &&
  (larry_same (y ← make (Nda DInt (Arr [2] [VInt 1%Z; VInt 2%Z])) None; z ← make (Nda DInt (Arr [3] [VInt 1%Z; VInt 2%Z; VInt 3%Z])) None; bin_larry (binaryop (np_arith AAdd) y z (JOne JRight) true (Some (VInt 0%Z)) (Some (VInt 0%Z)))) (make (Nda DFloat (Arr [3] [VFloat (num_of_Z 2%Z); VFloat (num_of_Z 4%Z); VFloat (num_of_Z 3%Z)])) None)) = true.
Proof. by vm_compute. Qed.
(** la/tests/flarry_test.py:1113 *)
Example flarry__Test_add__test_add_16 :
  (larry_same (y ← make (Nda DInt (Arr [2] [VInt 1%Z; VInt 2%Z])) None; z ← make (Nda DInt (Arr [3] [VInt 1%Z; VInt 2%Z; VInt 3%Z])) None; bin_larry (binaryop (np_arith AAdd) y z (JOne JRight) true None (Some (VInt 0%Z)))) (make (Nda DFloat (Arr [3] [VFloat (num_of_Z 2%Z); VFloat (num_of_Z 4%Z); VFloat (NaN)])) None)) &&
  (larry_same (y ← make (Nda DInt (Arr [2] [VInt 1%Z; VInt 2%Z])) None; z ← make (Nda DInt (Arr [3] [VInt 1%Z; VInt 2%Z; VInt 3%Z])) None; bin_larry (binaryop (np_arith AAdd) y z (JOne JRight) true None (Some (VInt 0%Z)))) (make (Nda DFloat (Arr [3] [VFloat (num_of_Z 2%Z); VFloat (num_of_Z 4%Z); VFloat (NaN)])) None)) = true.
Proof. by vm_compute. Qed.
(** la/tests/flarry_test.py:1123 *)
Example flarry__Test_add__test_add_17 :
  (larry_same (y ← make (Nda DFloat (Arr [4] [VFloat (num_of_Z 1%Z); VFloat (NaN); VFloat (NaN); VFloat (num_of_Z 1%Z)])) None; z ← make (Nda DFloat (Arr [4] [VFloat (num_of_Z 1%Z); VFloat (num_of_Z 1%Z); VFloat (NaN); VFloat (num_of_Z 1%Z)])) (Some [[LInt 0%Z; LInt 1%Z; LInt 2%Z; LStr "a"%string]]); bin_larry (binaryop (np_arith AAdd) y z (JOne JInner) true None None)) (make (Nda DFloat (Arr [3] [VFloat (num_of_Z 2%Z); VFloat (NaN); VFloat (NaN)])) (Some [[LInt 0%Z; LInt 1%Z; LInt 2%Z]]))) &&
  (larry_same (y ← make (Nda DFloat (Arr [4] [VFloat (num_of_Z 1%Z); VFloat (NaN); VFloat (NaN); VFloat (num_of_Z 1%Z)])) None; z ← make (Nda DFloat (Arr [4] [VFloat (num_of_Z 1%Z); VFloat (num_of_Z 1%Z); VFloat (NaN); VFloat (num_of_Z 1%Z)])) (Some [[LInt 0%Z; LInt 1%Z; LInt 2%Z; LStr "a"%string]]); bin_larry (binaryop (np_arith AAdd) y z (JOne JInner) true None None)) (make (Nda DFloat (Arr [3] [VFloat (num_of_Z 2%Z); VFloat (NaN); VFloat (NaN)])) (Some [[LInt 0%Z; LInt 1%Z; LInt 2%Z]]))) = true.
Proof. by vm_compute. Qed.
(** la/tests/flarry_test.py:1133 *)
Example flarry__Test_add__test_add_18 :
  (larry_same (y ← make (Nda DFloat (Arr [4] [VFloat (num_of_Z 1%Z); VFloat (NaN); VFloat (NaN); VFloat (num_of_Z 1%Z)])) None; z ← make (Nda DFloat (Arr [4] [VFloat (num_of_Z 1%Z); VFloat (num_of_Z 1%Z); VFloat (NaN); VFloat (num_of_Z 1%Z)])) (Some [[LInt 0%Z; LInt 1%Z; LInt 2%Z; LInt 9%Z]]); bin_larry (binaryop (np_arith AAdd) y z (JOne JOuter) true None None)) (make (Nda DFloat (Arr [5] [VFloat (num_of_Z 2%Z); VFloat (NaN); VFloat (NaN); VFloat (NaN); VFloat (NaN)])) (Some [[LInt 0%Z; LInt 1%Z; LInt 2%Z; LInt 3%Z; LInt 9%Z]]))) &&
  (larry_same (y ← make (Nda DFloat (Arr [4] [VFloat (num_of_Z 1%Z); VFloat (NaN); VFloat (NaN); VFloat (num_of_Z 1%Z)])) None; z ← make (Nda DFloat (Arr [4] [VFloat (num_of_Z 1%Z); VFloat (num_of_Z 1%Z); VFloat (NaN); VFloat (num_of_Z 1%Z)])) (Some [[LInt 0%Z; LInt 1%Z; LInt 2%Z; LInt 9%Z]]); bin_larry (binaryop (np_arith AAdd) y z (JOne JOuter) true None None)) (make (Nda DFloat (Arr [5] [VFloat (num_of_Z 2%Z); VFloat (NaN); VFloat (NaN); VFloat (NaN); VFloat (NaN)])) (Some [[LInt 0%Z; LInt 1%Z; LInt 2%Z; LInt 3%Z; LInt 9%Z]]))) = true.
Proof. by vm_compute. Qed.
(** la/tests/flarry_test.py:1143 *)
Example flarry__Test_add__test_add_19 :
  (larry_same (y ← make (Nda DFloat (Arr [4] [VFloat (num_of_Z 1%Z); VFloat (NaN); VFloat (NaN); VFloat (num_of_Z 1%Z)])) None; z ← make (Nda DFloat (Arr [4] [VFloat (num_of_Z 1%Z); VFloat (num_of_Z 1%Z); VFloat (NaN); VFloat (num_of_Z 1%Z)])) (Some [[LInt 0%Z; LInt 1%Z; LInt 2%Z; LInt 9%Z]]); bin_larry (binaryop (np_arith AAdd) y z (JOne JOuter) true (Some (VInt 0%Z)) None)) (make (Nda DFloat (Arr [5] [VFloat (num_of_Z 2%Z); VFloat (num_of_Z 1%Z); VFloat (NaN); VFloat (num_of_Z 1%Z); VFloat (num_of_Z 1%Z)])) (Some [[LInt 0%Z; LInt 1%Z; LInt 2%Z; LInt 3%Z; LInt 9%Z]]))) &&
  (larry_same (y ← make (Nda DFloat (Arr [4] [VFloat (num_of_Z 1%Z); VFloat (NaN); VFloat (NaN); VFloat (num_of_Z 1%Z)])) None; z ← make (Nda DFloat (Arr [4] [VFloat (num_of_Z 1%Z); VFloat (num_of_Z 1%Z); VFloat (NaN); VFloat (num_of_Z 1%Z)])) (Some [[LInt 0%Z; LInt 1%Z; LInt 2%Z; LInt 9%Z]]); bin_larry (binaryop (np_arith AAdd) y z (JOne JOuter) true (Some (VInt 0%Z)) None)) (make (Nda DFloat (Arr [5] [VFloat (num_of_Z 2%Z); VFloat (num_of_Z 1%Z); VFloat (NaN); VFloat (num_of_Z 1%Z); VFloat (num_of_Z 1%Z)])) (Some [[LInt 0%Z; LInt 1%Z; LInt 2%Z; LInt 3%Z; LInt 9%Z]]))) = true.
Proof. by vm_compute. Qed.
(** la/tests/flarry_test.py:1153 *)
Example flarry__Test_add__test_add_20 :
  (larry_same (y ← make (Nda DFloat (Arr [4] [VFloat (num_of_Z 1%Z); VFloat (NaN); VFloat (NaN); VFloat (num_of_Z 1%Z)])) None; z ← make (Nda DFloat (Arr [4] [VFloat (num_of_Z 1%Z); VFloat (num_of_Z 1%Z); VFloat (NaN); VFloat (num_of_Z 1%Z)])) (Some [[LInt 0%Z; LInt 1%Z; LInt 2%Z; LInt 9%Z]]); bin_larry (binaryop (np_arith AAdd) y z (JOne JOuter) true (Some (VInt 0%Z)) (Some (VInt 0%Z)))) (make (Nda DFloat (Arr [5] [VFloat (num_of_Z 2%Z); VFloat (num_of_Z 1%Z); VFloat (num_of_Z 0%Z); VFloat (num_of_Z 1%Z); VFloat (num_of_Z 1%Z)])) (Some [[LInt 0%Z; LInt 1%Z; LInt 2%Z; LInt 3%Z; LInt 9%Z]]))) &&
  (larry_same (y ← make (Nda DFloat (Arr [4] [VFloat (num_of_Z 1%Z); VFloat (NaN); VFloat (NaN); VFloat (num_of_Z 1%Z)])) None; z ← make (Nda DFloat (Arr [4] [VFloat (num_of_Z 1%Z); VFloat (num_of_Z 1%Z); VFloat (NaN); VFloat (num_of_Z 1%Z)])) (Some [[LInt 0%Z; LInt 1%Z; LInt 2%Z; LInt 9%Z]]); bin_larry (binaryop (np_arith AAdd) y z (JOne JOuter) true (Some (VInt 0%Z)) (Some (VInt 0%Z)))) (make (Nda DFloat (Arr [5] [VFloat (num_of_Z 2%Z); VFloat (num_of_Z 1%Z); VFloat (num_of_Z 0%Z); VFloat (num_of_Z 1%Z); VFloat (num_of_Z 1%Z)])) (Some [[LInt 0%Z; LInt 1%Z; LInt 2%Z; LInt 3%Z; LInt 9%Z]]))) = true.
Proof. by vm_compute. Qed.
(** la/tests/flarry_test.py:1166 *)
Example flarry__Test_subtract__test_subtract_01 :
  (larry_same (y ← make (Nda DFloat (Arr [3] [VFloat (num_of_Z 1%Z); VFloat (num_of_Z 2%Z); VFloat (NaN)])) (Some [[LStr "a"%string; LStr "b"%string; LStr "c"%string]]); z ← make (Nda DFloat (Arr [3] [VFloat (num_of_Z 1%Z); VFloat (NaN); VFloat (NaN)])) (Some [[LStr "a"%string; LStr "b"%string; LStr "dd"%string]]); bin_larry (binaryop (np_arith ASub) y z (JOne JInner) true None None)) (make (Nda DFloat (Arr [2] [VFloat (num_of_Z 0%Z); VFloat (NaN)])) (Some [[LStr "a"%string; LStr "b"%string]]))) &&
  (larry_same (y ← make (Nda DFloat (Arr [3] [VFloat (num_of_Z 1%Z); VFloat (num_of_Z 2%Z); VFloat (NaN)])) (Some [[LStr "a"%string; LStr "b"%string; LStr "c"%string]]); z ← make (Nda DFloat (Arr [3] [VFloat (num_of_Z 1%Z); VFloat (NaN); VFloat (NaN)])) (Some [[LStr "a"%string; LStr "b"%string; LStr "dd"%string]]); bin_larry (binaryop (np_arith ASub) y z (JOne JInner) true None None)) (make (Nda DFloat (Arr [2] [VFloat (num_of_Z 0%Z); VFloat (NaN)])) (Some [[LStr "a"%string; LStr "b"%string]]))) = true.
Proof. by vm_compute. Qed.
(** la/tests/flarry_test.py:1176 *)
Example flarry__Test_subtract__test_subtract_02 :
  (larry_same (y ← make (Nda DFloat (Arr [3] [VFloat (num_of_Z 1%Z); VFloat (num_of_Z 2%Z); VFloat (NaN)])) (Some [[LStr "a"%string; LStr "b"%string; LStr "c"%string]]); z ← make (Nda DFloat (Arr [3] [VFloat (num_of_Z 1%Z); VFloat (NaN); VFloat (NaN)])) (Some [[LStr "a"%string; LStr "b"%string; LStr "dd"%string]]); bin_larry (binaryop (np_arith ASub) y z (JOne JInner) true (Some (VInt 0%Z)) None)) (make (Nda DFloat (Arr [2] [VFloat (num_of_Z 0%Z); VFloat (num_of_Z 2%Z)])) (Some [[LStr "a"%string; LStr "b"%string]]))) &&
  (larry_same (y ← make (Nda DFloat (Arr [3] [VFloat (num_of_Z 1%Z); VFloat (num_of_Z 2%Z); VFloat (NaN)])) (Some [[LStr "a"%string; LStr "b"%string; LStr "c"%string]]); z ← make (Nda DFloat (Arr [3] [VFloat (num_of_Z 1%Z); VFloat (NaN); VFloat (NaN)])) (Some [[LStr "a"%string; LStr "b"%string; LStr "dd"%string]]); bin_larry (binaryop (np_arith ASub) y z (JOne JInner) true (Some (VInt 0%Z)) None)) (make (Nda DFloat (Arr [2] [VFloat (num_of_Z 0%Z); VFloat (num_of_Z 2%Z)])) (Some [[LStr "a"%string; LStr "b"%string]]))) = true.
Proof. by vm_compute. Qed.
(** la/tests/flarry_test.py:1186 *)
Example flarry__Test_subtract__test_subtract_03 :
  (larry_same (y ← make (Nda DFloat (Arr [3] [VFloat (num_of_Z 1%Z); VFloat (num_of_Z 2%Z); VFloat (NaN)])) (Some [[LStr "a"%string; LStr "b"%string; LStr "c"%string]]); z ← make (Nda DFloat (Arr [3] [VFloat (num_of_Z 1%Z); VFloat (NaN); VFloat (NaN)])) (Some [[LStr "a"%string; LStr "b"%string; LStr "dd"%string]]); bin_larry (binaryop (np_arith ASub) y z (JOne JOuter) true None None)) (make (Nda DFloat (Arr [4] [VFloat (num_of_Z 0%Z); VFloat (NaN); VFloat (NaN); VFloat (NaN)])) (Some [[LStr "a"%string; LStr "b"%string; LStr "c"%string; LStr "dd"%string]]))) &&
  (larry_same (y ← make (Nda DFloat (Arr [3] [VFloat (num_of_Z 1%Z); VFloat (num_of_Z 2%Z); VFloat (NaN)])) (Some [[LStr "a"%string; LStr "b"%string; LStr "c"%string]]); z ← make (Nda DFloat (Arr [3] [VFloat (num_of_Z 1%Z); VFloat (NaN); VFloat (NaN)])) (Some [[LStr "a"%string; LStr "b"%string; LStr "dd"%string]]); bin_larry (binaryop (np_arith ASub) y z (JOne JOuter) true None None)) (make (Nda DFloat (Arr [4] [VFloat (num_of_Z 0%Z); VFloat (NaN); VFloat (NaN); VFloat (NaN)])) (Some [[LStr "a"%string; LStr "b"%string; LStr "c"%string; LStr "dd"%string]]))) = true.
Proof. by vm_compute. Qed.
(** la/tests/flarry_test.py:1196 *)
Example flarry__Test_subtract__test_subtract_04 :
  (larry_same (y ← make (Nda DFloat (Arr [3] [VFloat (num_of_Z 1%Z); VFloat (num_of_Z 2%Z); VFloat (NaN)])) (Some [[LStr "a"%string; LStr "b"%string; LStr "c"%string]]); z ← make (Nda DFloat (Arr [3] [VFloat (num_of_Z 1%Z); VFloat (NaN); VFloat (NaN)])) (Some [[LStr "a"%string; LStr "b"%string; LStr "dd"%string]]); bin_larry (binaryop (np_arith ASub) y z (JOne JOuter) true (Some (VInt 0%Z)) (Some (VInt 0%Z)))) (make (Nda DFloat (Arr [4] [VFloat (num_of_Z 0%Z); VFloat (num_of_Z 2%Z); VFloat (num_of_Z 0%Z); VFloat (num_of_Z 0%Z)])) (Some [[LStr "a"%string; LStr "b"%string; LStr "c"%string; LStr "dd"%string]]))) &&
  (larry_same (y ← make (Nda DFloat (Arr [3] [VFloat (num_of_Z 1%Z); VFloat (num_of_Z 2%Z); VFloat (NaN)])) (Some [[LStr "a"%string; LStr "b"%string; LStr "c"%string]]); z ← make (Nda DFloat (Arr [3] [VFloat (num_of_Z 1%Z); VFloat (NaN); VFloat (NaN)])) (Some [[LStr "a"%string; LStr "b"%string; LStr "dd"%string]]); bin_larry (binaryop (np_arith ASub) y z (JOne JOuter) true (Some (VInt 0%Z)) (Some (VInt 0%Z)))) (make (Nda DFloat (Arr [4] [VFloat (num_of_Z 0%Z); VFloat (num_of_Z 2%Z); VFloat (num_of_Z 0%Z); VFloat (num_of_Z 0%Z)])) (Some [[LStr "a"%string; LStr "b"%string; LStr "c"%string; LStr "dd"%string]]))) = true.
Proof. by vm_compute. Qed.
(** la/tests/flarry_test.py:1209 *)
Example flarry__Test_multiply__test_multiply_01 :
  (larry_same (y ← make (Nda DFloat (Arr [3] [VFloat (num_of_Z 1%Z); VFloat (num_of_Z 2%Z); VFloat (NaN)])) (Some [[LStr "a"%string; LStr "b"%string; LStr "c"%string]]); z ← make (Nda DFloat (Arr [3] [VFloat (num_of_Z 1%Z); VFloat (NaN); VFloat (NaN)])) (Some [[LStr "a"%string; LStr "b"%string; LStr "dd"%string]]); bin_larry (binaryop (np_arith AMul) y z (JOne JOuter) true (Some (VInt 1%Z)) (Some (VInt 2%Z)))) (make (Nda DFloat (Arr [4] [VFloat (num_of_Z 1%Z); VFloat (num_of_Z 2%Z); VFloat (num_of_Z 4%Z); VFloat (num_of_Z 4%Z)])) (Some [[LStr "a"%string; LStr "b"%string; LStr "c"%string; LStr "dd"%string]]))) &&
  (larry_same (y ← make (Nda DFloat (Arr [3] [VFloat (num_of_Z 1%Z); VFloat (num_of_Z 2%Z); VFloat (NaN)])) (Some [[LStr "a"%string; LStr "b"%string; LStr "c"%string]]); z ← make (Nda DFloat (Arr [3] [VFloat (num_of_Z 1%Z); VFloat (NaN); VFloat (NaN)])) (Some [[LStr "a"%string; LStr "b"%string; LStr "dd"%string]]); bin_larry (binaryop (np_arith AMul) y z (JOne JOuter) true (Some (VInt 1%Z)) (Some (VInt 2%Z)))) (make (Nda DFloat (Arr [4] [VFloat (num_of_Z 1%Z); VFloat (num_of_Z 2%Z); VFloat (num_of_Z 4%Z); VFloat (num_of_Z 4%Z)])) (Some [[LStr "a"%string; LStr "b"%string; LStr "c"%string; LStr "dd"%string]]))) = true.
Proof. by vm_compute. Qed.
(** la/tests/flarry_test.py:1222 *)
Example flarry__Test_divide__test_divide_01 :
  (larry_same (y ← make (Nda DFloat (Arr [3] [VFloat (num_of_Z 1%Z); VFloat (num_of_Z 2%Z); VFloat (NaN)])) (Some [[LStr "a"%string; LStr "b"%string; LStr "c"%string]]); z ← make (Nda DFloat (Arr [3] [VFloat (num_of_Z 1%Z); VFloat (NaN); VFloat (NaN)])) (Some [[LStr "a"%string; LStr "b"%string; LStr "dd"%string]]); bin_larry (binaryop (np_arith ADiv) y z (JOne JOuter) true (Some (VInt 1%Z)) (Some (VInt 2%Z)))) (make (Nda DFloat (Arr [4] [VFloat (num_of_Z 1%Z); VFloat (num_of_Z 2%Z); VFloat (num_of_Z 1%Z); VFloat (num_of_Z 1%Z)])) (Some [[LStr "a"%string; LStr "b"%string; LStr "c"%string; LStr "dd"%string]]))) &&
  (larry_same (y ← make (Nda DFloat (Arr [3] [VFloat (num_of_Z 1%Z); VFloat (num_of_Z 2%Z); VFloat (NaN)])) (Some [[LStr "a"%string; LStr "b"%string; LStr "c"%string]]); z ← make (Nda DFloat (Arr [3] [VFloat (num_of_Z 1%Z); VFloat (NaN); VFloat (NaN)])) (Some [[LStr "a"%string; LStr "b"%string; LStr "dd"%string]]); bin_larry (binaryop (np_arith ADiv) y z (JOne JOuter) true (Some (VInt 1%Z)) (Some (VInt 2%Z)))) (make (Nda DFloat (Arr [4] [VFloat (num_of_Z 1%Z); VFloat (num_of_Z 2%Z); VFloat (num_of_Z 1%Z); VFloat (num_of_Z 1%Z)])) (Some [[LStr "a"%string; LStr "b"%string; LStr "c"%string; LStr "dd"%string]]))) = true.
Proof. by vm_compute. Qed.
(** la/tests/flarry_test.py:1241 *)
Example flarry__Test_sortby__test_sortby_1 :
  (larry_same (lar_of_gres (y ← make (Nda DInt (Arr [2; 3] [VInt 1%Z; VInt 2%Z; VInt 3%Z; VInt 3%Z; VInt 1%Z; VInt 2%Z])) (Some [[LStr "a"%string; LStr "b"%string]; [LStr "c"%string; LStr "d"%string; LStr "e"%string]]); larry_getitem y (XTuple [ISlice (Slice None None None); IList [1%Z; 2%Z; 0%Z]]))) (y ← make (Nda DInt (Arr [2; 3] [VInt 1%Z; VInt 2%Z; VInt 3%Z; VInt 3%Z; VInt 1%Z; VInt 2%Z])) (Some [[LStr "a"%string; LStr "b"%string]; [LStr "c"%string; LStr "d"%string; LStr "e"%string]]); sortby np_argsort y (LStr "b"%string) 0%Z false)) = true.
Proof. by vm_compute. Qed.
(** la/tests/flarry_test.py:1248 *)
Example flarry__Test_sortby__test_sortby_2 :
  (larry_same (lar_of_gres (y ← make (Nda DInt (Arr [2; 3] [VInt 1%Z; VInt 2%Z; VInt 3%Z; VInt 3%Z; VInt 1%Z; VInt 2%Z])) (Some [[LStr "a"%string; LStr "b"%string]; [LStr "c"%string; LStr "d"%string; LStr "e"%string]]); larry_getitem y (XTuple [IList [1%Z; 0%Z]; ISlice (Slice None None None)]))) (y ← make (Nda DInt (Arr [2; 3] [VInt 1%Z; VInt 2%Z; VInt 3%Z; VInt 3%Z; VInt 1%Z; VInt 2%Z])) (Some [[LStr "a"%string; LStr "b"%string]; [LStr "c"%string; LStr "d"%string; LStr "e"%string]]); sortby np_argsort y (LStr "e"%string) 1%Z false)) = true.
Proof. by vm_compute. Qed.
(** la/tests/flarry_test.py:1255 *)
Example flarry__Test_sortby__test_sortby_3 :
  (larry_same (lar_of_gres (y ← make (Nda DInt (Arr [2; 3] [VInt 1%Z; VInt 2%Z; VInt 3%Z; VInt 3%Z; VInt 1%Z; VInt 2%Z])) (Some [[LStr "a"%string; LStr "b"%string]; [LStr "c"%string; LStr "d"%string; LStr "e"%string]]); larry_getitem y (XTuple [ISlice (Slice None None None); IList [1%Z; 2%Z; 0%Z]]))) (y ← make (Nda DInt (Arr [2; 3] [VInt 1%Z; VInt 2%Z; VInt 3%Z; VInt 3%Z; VInt 1%Z; VInt 2%Z])) (Some [[LStr "a"%string; LStr "b"%string]; [LStr "c"%string; LStr "d"%string; LStr "e"%string]]); sortby np_argsort y (LStr "b"%string) (-2)%Z false)) = true.
Proof. by vm_compute. Qed.
(** la/tests/flarry_test.py:1262 *)
Example flarry__Test_sortby__test_sortby_4 :
  (larry_same (lar_of_gres (y ← make (Nda DInt (Arr [2; 3] [VInt 1%Z; VInt 2%Z; VInt 3%Z; VInt 3%Z; VInt 1%Z; VInt 2%Z])) (Some [[LStr "a"%string; LStr "b"%string]; [LStr "c"%string; LStr "d"%string; LStr "e"%string]]); larry_getitem y (XTuple [IList [1%Z; 0%Z]; ISlice (Slice None None None)]))) (y ← make (Nda DInt (Arr [2; 3] [VInt 1%Z; VInt 2%Z; VInt 3%Z; VInt 3%Z; VInt 1%Z; VInt 2%Z])) (Some [[LStr "a"%string; LStr "b"%string]; [LStr "c"%string; LStr "d"%string; LStr "e"%string]]); sortby np_argsort y (LStr "e"%string) (-1)%Z false)) = true.
Proof. by vm_compute. Qed.
(** la/tests/flarry_test.py:1269 *)
Example flarry__Test_sortby__test_sortby_5 :
  (larry_same (lar_of_gres (y ← make (Nda DInt (Arr [2; 3] [VInt 1%Z; VInt 2%Z; VInt 3%Z; VInt 3%Z; VInt 1%Z; VInt 2%Z])) (Some [[LStr "a"%string; LStr "b"%string]; [LStr "c"%string; LStr "d"%string; LStr "e"%string]]); larry_getitem y (XTuple [ISlice (Slice None None None); IList [0%Z; 2%Z; 1%Z]]))) (y ← make (Nda DInt (Arr [2; 3] [VInt 1%Z; VInt 2%Z; VInt 3%Z; VInt 3%Z; VInt 1%Z; VInt 2%Z])) (Some [[LStr "a"%string; LStr "b"%string]; [LStr "c"%string; LStr "d"%string; LStr "e"%string]]); sortby np_argsort y (LStr "b"%string) 0%Z true)) = true.
Proof. by vm_compute. Qed.
(** la/tests/flarry_test.py:1276 *)
Example flarry__Test_sortby__test_sortby_6 :
  (larry_same (make (Nda DInt (Arr [2; 3] [VInt 1%Z; VInt 2%Z; VInt 3%Z; VInt 3%Z; VInt 1%Z; VInt 2%Z])) (Some [[LStr "a"%string; LStr "b"%string]; [LStr "c"%string; LStr "d"%string; LStr "e"%string]])) (y ← make (Nda DInt (Arr [2; 3] [VInt 1%Z; VInt 2%Z; VInt 3%Z; VInt 3%Z; VInt 1%Z; VInt 2%Z])) (Some [[LStr "a"%string; LStr "b"%string]; [LStr "c"%string; LStr "d"%string; LStr "e"%string]]); sortby np_argsort y (LStr "e"%string) 1%Z true)) = true.
Proof. by vm_compute. Qed.
(** la/tests/flarry_test.py:1283 *)
Example flarry__Test_sortby__test_sortby_7 :
  (larry_same (make (Nda DFloat (Arr [1; 0] [])) None) (y ← make (Nda DFloat (Arr [1; 0] [])) None; sortby np_argsort y (LInt 0%Z) 0%Z false)) = true.
Proof. by vm_compute. Qed.
(** la/tests/flarry_test.py:1290 *)
Example flarry__Test_sortby__test_sortby_8 :
  (raises (y ← make (Nda DInt (Arr [2; 3] [VInt 1%Z; VInt 2%Z; VInt 3%Z; VInt 3%Z; VInt 1%Z; VInt 2%Z])) (Some [[LStr "a"%string; LStr "b"%string]; [LStr "c"%string; LStr "d"%string; LStr "e"%string]]); sortby np_argsort y (LStr "b"%string) 2%Z false) ValueError) = true.
Proof. by vm_compute. Qed.
(** la/tests/flarry_test.py:1294 *)
Example flarry__Test_sortby__test_sortby_9 :
  (raises (y ← make (Nda DInt (Arr [2; 3] [VInt 1%Z; VInt 2%Z; VInt 3%Z; VInt 3%Z; VInt 1%Z; VInt 2%Z])) (Some [[LStr "a"%string; LStr "b"%string]; [LStr "c"%string; LStr "d"%string; LStr "e"%string]]); sortby np_argsort y (LStr "b"%string) (-3)%Z false) ValueError) = true.
Proof. by vm_compute. Qed.
(** la/tests/flarry_test.py:1298 *)
Example flarry__Test_sortby__test_sortby_10 :
  (raises (y ← lar_of_gres (y ← make (Nda DInt (Arr [2; 3] [VInt 1%Z; VInt 2%Z; VInt 3%Z; VInt 3%Z; VInt 1%Z; VInt 2%Z])) (Some [[LStr "a"%string; LStr "b"%string]; [LStr "c"%string; LStr "d"%string; LStr "e"%string]]); larry_getitem y (XInt 0%Z)); sortby np_argsort y (LStr "d"%string) 0%Z false) ValueError) = true.
Proof. by vm_compute. Qed.
