(** Written by tools/unit/gen.py from the unit tests of la: 191 tests, 268
    assertions.  The tests are read as text; a test or assertion that the
    reader does not follow is left out. *)
From Verif Require Import UnitBase.
From Verif Require Import Session SetArray.

(** la/tests/deflarry_test.py:40 *)
Example deflarry__Test_binary__test___add___1 :
  (x_near (y ← make (Nda DFloat (Arr [3; 4] [VFloat (num_of_Z 0%Z); VFloat (num_of_Z 0%Z); VFloat (num_of_Z 1%Z); VFloat (num_of_Z 1%Z); VFloat (num_of_Z 0%Z); VFloat (num_of_Z 0%Z); VFloat (num_of_Z 1%Z); VFloat (num_of_Z 1%Z); VFloat (num_of_Z 1%Z); VFloat (num_of_Z 1%Z); VFloat (num_of_Z 1%Z); VFloat (num_of_Z 1%Z)])) None; z ← make (Nda DFloat (Arr [2; 2] [VFloat (num_of_Z 1%Z); VFloat (num_of_Z 2%Z); VFloat (num_of_Z 3%Z); VFloat (num_of_Z 4%Z)])) None; larry_arith AAdd y (OpLarry z)) [2; 2] [VFloat (num_of_Z 1%Z); VFloat (num_of_Z 2%Z); VFloat (num_of_Z 3%Z); VFloat (num_of_Z 4%Z)]) = true.
Proof. by vm_compute. Qed.
(** la/tests/deflarry_test.py:67 *)
Example deflarry__Test_binary__test___add___2 :
  (labels_same (y ← make (Nda DFloat (Arr [3; 4] [VFloat (num_of_Z 0%Z); VFloat (num_of_Z 0%Z); VFloat (num_of_Z 1%Z); VFloat (num_of_Z 1%Z); VFloat (num_of_Z 0%Z); VFloat (num_of_Z 0%Z); VFloat (num_of_Z 1%Z); VFloat (num_of_Z 1%Z); VFloat (num_of_Z 1%Z); VFloat (num_of_Z 1%Z); VFloat (num_of_Z 1%Z); VFloat (num_of_Z 1%Z)])) None; larry_arith AAdd y (OpArr (Nda DFloat (Arr [3; 4] [VFloat (num_of_Z 0%Z); VFloat (num_of_Z 0%Z); VFloat (num_of_Z 1%Z); VFloat (num_of_Z 1%Z); VFloat (num_of_Z 0%Z); VFloat (num_of_Z 0%Z); VFloat (num_of_Z 1%Z); VFloat (num_of_Z 1%Z); VFloat (num_of_Z 1%Z); VFloat (num_of_Z 1%Z); VFloat (num_of_Z 1%Z); VFloat (num_of_Z 1%Z)])))) (make (Nda DFloat (Arr [3; 4] [VFloat (num_of_Z 0%Z); VFloat (num_of_Z 0%Z); VFloat (num_of_Z 1%Z); VFloat (num_of_Z 1%Z); VFloat (num_of_Z 0%Z); VFloat (num_of_Z 0%Z); VFloat (num_of_Z 1%Z); VFloat (num_of_Z 1%Z); VFloat (num_of_Z 1%Z); VFloat (num_of_Z 1%Z); VFloat (num_of_Z 1%Z); VFloat (num_of_Z 1%Z)])) None)) = true.
Proof. by vm_compute. Qed.
(** la/tests/deflarry_test.py:88 *)
Example deflarry__Test_binary__test___add___3 :
  (labels_same (y ← make (Nda DFloat (Arr [3; 4] [VFloat (num_of_Z 0%Z); VFloat (num_of_Z 0%Z); VFloat (num_of_Z 1%Z); VFloat (num_of_Z 1%Z); VFloat (num_of_Z 0%Z); VFloat (num_of_Z 0%Z); VFloat (num_of_Z 1%Z); VFloat (num_of_Z 1%Z); VFloat (num_of_Z 1%Z); VFloat (num_of_Z 1%Z); VFloat (num_of_Z 1%Z); VFloat (num_of_Z 1%Z)])) None; larry_rarith AAdd y (OpArr (Nda DFloat (Arr [3; 4] [VFloat (num_of_Z 0%Z); VFloat (num_of_Z 0%Z); VFloat (num_of_Z 1%Z); VFloat (num_of_Z 1%Z); VFloat (num_of_Z 0%Z); VFloat (num_of_Z 0%Z); VFloat (num_of_Z 1%Z); VFloat (num_of_Z 1%Z); VFloat (num_of_Z 1%Z); VFloat (num_of_Z 1%Z); VFloat (num_of_Z 1%Z); VFloat (num_of_Z 1%Z)])))) (make (Nda DFloat (Arr [3; 4] [VFloat (num_of_Z 0%Z); VFloat (num_of_Z 0%Z); VFloat (num_of_Z 1%Z); VFloat (num_of_Z 1%Z); VFloat (num_of_Z 0%Z); VFloat (num_of_Z 0%Z); VFloat (num_of_Z 1%Z); VFloat (num_of_Z 1%Z); VFloat (num_of_Z 1%Z); VFloat (num_of_Z 1%Z); VFloat (num_of_Z 1%Z); VFloat (num_of_Z 1%Z)])) None)) = true.
Proof. by vm_compute. Qed.
(** la/tests/deflarry_test.py:108 *)
Example deflarry__Test_binary__test___add___4 :
  (labels_same (y ← make (Nda DFloat (Arr [3; 4] [VFloat (num_of_Z 0%Z); VFloat (num_of_Z 0%Z); VFloat (num_of_Z 1%Z); VFloat (num_of_Z 1%Z); VFloat (num_of_Z 0%Z); VFloat (num_of_Z 0%Z); VFloat (num_of_Z 1%Z); VFloat (num_of_Z 1%Z); VFloat (num_of_Z 1%Z); VFloat (num_of_Z 1%Z); VFloat (num_of_Z 1%Z); VFloat (num_of_Z 1%Z)])) None; larry_arith AAdd y (OpScalar (VFloat (num_of_Z 1%Z)))) (make (Nda DFloat (Arr [3; 4] [VFloat (num_of_Z 0%Z); VFloat (num_of_Z 0%Z); VFloat (num_of_Z 1%Z); VFloat (num_of_Z 1%Z); VFloat (num_of_Z 0%Z); VFloat (num_of_Z 0%Z); VFloat (num_of_Z 1%Z); VFloat (num_of_Z 1%Z); VFloat (num_of_Z 1%Z); VFloat (num_of_Z 1%Z); VFloat (num_of_Z 1%Z); VFloat (num_of_Z 1%Z)])) None)) = true.
Proof. by vm_compute. Qed.
(** la/tests/deflarry_test.py:128 *)
Example deflarry__Test_binary__test___add___5 :
  (labels_same (y ← make (Nda DFloat (Arr [3; 4] [VFloat (num_of_Z 0%Z); VFloat (num_of_Z 0%Z); VFloat (num_of_Z 1%Z); VFloat (num_of_Z 1%Z); VFloat (num_of_Z 0%Z); VFloat (num_of_Z 0%Z); VFloat (num_of_Z 1%Z); VFloat (num_of_Z 1%Z); VFloat (num_of_Z 1%Z); VFloat (num_of_Z 1%Z); VFloat (num_of_Z 1%Z); VFloat (num_of_Z 1%Z)])) None; larry_rarith AAdd y (OpScalar (VFloat (num_of_Z 1%Z)))) (make (Nda DFloat (Arr [3; 4] [VFloat (num_of_Z 0%Z); VFloat (num_of_Z 0%Z); VFloat (num_of_Z 1%Z); VFloat (num_of_Z 1%Z); VFloat (num_of_Z 0%Z); VFloat (num_of_Z 0%Z); VFloat (num_of_Z 1%Z); VFloat (num_of_Z 1%Z); VFloat (num_of_Z 1%Z); VFloat (num_of_Z 1%Z); VFloat (num_of_Z 1%Z); VFloat (num_of_Z 1%Z)])) None)) = true.
Proof. by vm_compute. Qed.
(** la/tests/deflarry_test.py:148 *)
Example deflarry__Test_binary__test___add___6 :
  (raises (y ← make (Nda DFloat (Arr [3; 4] [VFloat (num_of_Z 0%Z); VFloat (num_of_Z 0%Z); VFloat (num_of_Z 1%Z); VFloat (num_of_Z 1%Z); VFloat (num_of_Z 0%Z); VFloat (num_of_Z 0%Z); VFloat (num_of_Z 1%Z); VFloat (num_of_Z 1%Z); VFloat (num_of_Z 1%Z); VFloat (num_of_Z 1%Z); VFloat (num_of_Z 1%Z); VFloat (num_of_Z 1%Z)])) None; larry_arith AAdd y OpOther) TypeError) = true.
Proof. by vm_compute. Qed.
(** la/tests/deflarry_test.py:162 *)
Example deflarry__Test_binary__test___add___8 :
  (raises (y ← make (Nda DFloat (Arr [3; 4] [VFloat (num_of_Z 0%Z); VFloat (num_of_Z 0%Z); VFloat (num_of_Z 1%Z); VFloat (num_of_Z 1%Z); VFloat (num_of_Z 0%Z); VFloat (num_of_Z 0%Z); VFloat (num_of_Z 1%Z); VFloat (num_of_Z 1%Z); VFloat (num_of_Z 1%Z); VFloat (num_of_Z 1%Z); VFloat (num_of_Z 1%Z); VFloat (num_of_Z 1%Z)])) None; z ← make (Nda DFloat (Arr [2] [VFloat (num_of_Z 1%Z); VFloat (num_of_Z 1%Z)])) None; larry_arith AAdd y (OpLarry z)) IndexError) = true.
Proof. by vm_compute. Qed.
(** la/tests/deflarry_test.py:198 *)
Example deflarry__Test_binary__test___sub___1 :
  (x_near (y ← make (Nda DFloat (Arr [2; 2] [VFloat (num_of_Z 1%Z); VFloat (num_of_Z 2%Z); VFloat (num_of_Z 3%Z); VFloat (num_of_Z 4%Z)])) None; z ← make (Nda DFloat (Arr [3; 4] [VFloat (num_of_Z 0%Z); VFloat (num_of_Z 0%Z); VFloat (num_of_Z 1%Z); VFloat (num_of_Z 1%Z); VFloat (num_of_Z 0%Z); VFloat (num_of_Z 0%Z); VFloat (num_of_Z 1%Z); VFloat (num_of_Z 1%Z); VFloat (num_of_Z 1%Z); VFloat (num_of_Z 1%Z); VFloat (num_of_Z 1%Z); VFloat (num_of_Z 1%Z)])) None; larry_arith ASub y (OpLarry z)) [2; 2] [VFloat (num_of_Z 1%Z); VFloat (num_of_Z 2%Z); VFloat (num_of_Z 3%Z); VFloat (num_of_Z 4%Z)]) = true.
Proof. by vm_compute. Qed.
(** la/tests/deflarry_test.py:225 *)
Example deflarry__Test_binary__test___sub___2 :
  (labels_same (y ← make (Nda DFloat (Arr [3; 4] [VFloat (num_of_Z 0%Z); VFloat (num_of_Z 0%Z); VFloat (num_of_Z 1%Z); VFloat (num_of_Z 1%Z); VFloat (num_of_Z 0%Z); VFloat (num_of_Z 0%Z); VFloat (num_of_Z 1%Z); VFloat (num_of_Z 1%Z); VFloat (num_of_Z 1%Z); VFloat (num_of_Z 1%Z); VFloat (num_of_Z 1%Z); VFloat (num_of_Z 1%Z)])) None; larry_arith ASub y (OpArr (Nda DFloat (Arr [3; 4] [VFloat (num_of_Z 0%Z); VFloat (num_of_Z 0%Z); VFloat (num_of_Z 1%Z); VFloat (num_of_Z 1%Z); VFloat (num_of_Z 0%Z); VFloat (num_of_Z 0%Z); VFloat (num_of_Z 1%Z); VFloat (num_of_Z 1%Z); VFloat (num_of_Z 1%Z); VFloat (num_of_Z 1%Z); VFloat (num_of_Z 1%Z); VFloat (num_of_Z 1%Z)])))) (make (Nda DFloat (Arr [3; 4] [VFloat (num_of_Z 0%Z); VFloat (num_of_Z 0%Z); VFloat (num_of_Z 1%Z); VFloat (num_of_Z 1%Z); VFloat (num_of_Z 0%Z); VFloat (num_of_Z 0%Z); VFloat (num_of_Z 1%Z); VFloat (num_of_Z 1%Z); VFloat (num_of_Z 1%Z); VFloat (num_of_Z 1%Z); VFloat (num_of_Z 1%Z); VFloat (num_of_Z 1%Z)])) None)) = true.
Proof. by vm_compute. Qed.
(** la/tests/deflarry_test.py:245 *)
Example deflarry__Test_binary__test___sub___3 :
  (labels_same (y ← make (Nda DFloat (Arr [3; 4] [VFloat (num_of_Z 0%Z); VFloat (num_of_Z 0%Z); VFloat (num_of_Z 1%Z); VFloat (num_of_Z 1%Z); VFloat (num_of_Z 0%Z); VFloat (num_of_Z 0%Z); VFloat (num_of_Z 1%Z); VFloat (num_of_Z 1%Z); VFloat (num_of_Z 1%Z); VFloat (num_of_Z 1%Z); VFloat (num_of_Z 1%Z); VFloat (num_of_Z 1%Z)])) None; larry_rarith ASub y (OpArr (Nda DFloat (Arr [3; 4] [VFloat (num_of_Z 0%Z); VFloat (num_of_Z 0%Z); VFloat (num_of_Z 1%Z); VFloat (num_of_Z 1%Z); VFloat (num_of_Z 0%Z); VFloat (num_of_Z 0%Z); VFloat (num_of_Z 1%Z); VFloat (num_of_Z 1%Z); VFloat (num_of_Z 1%Z); VFloat (num_of_Z 1%Z); VFloat (num_of_Z 1%Z); VFloat (num_of_Z 1%Z)])))) (make (Nda DFloat (Arr [3; 4] [VFloat (num_of_Z 0%Z); VFloat (num_of_Z 0%Z); VFloat (num_of_Z 1%Z); VFloat (num_of_Z 1%Z); VFloat (num_of_Z 0%Z); VFloat (num_of_Z 0%Z); VFloat (num_of_Z 1%Z); VFloat (num_of_Z 1%Z); VFloat (num_of_Z 1%Z); VFloat (num_of_Z 1%Z); VFloat (num_of_Z 1%Z); VFloat (num_of_Z 1%Z)])) None)) = true.
Proof. by vm_compute. Qed.
(** la/tests/deflarry_test.py:265 *)
Example deflarry__Test_binary__test___sub___4 :
  (labels_same (y ← make (Nda DFloat (Arr [3; 4] [VFloat (num_of_Z 0%Z); VFloat (num_of_Z 0%Z); VFloat (num_of_Z 1%Z); VFloat (num_of_Z 1%Z); VFloat (num_of_Z 0%Z); VFloat (num_of_Z 0%Z); VFloat (num_of_Z 1%Z); VFloat (num_of_Z 1%Z); VFloat (num_of_Z 1%Z); VFloat (num_of_Z 1%Z); VFloat (num_of_Z 1%Z); VFloat (num_of_Z 1%Z)])) None; larry_arith ASub y (OpScalar (VFloat (num_of_Z 1%Z)))) (make (Nda DFloat (Arr [3; 4] [VFloat (num_of_Z 0%Z); VFloat (num_of_Z 0%Z); VFloat (num_of_Z 1%Z); VFloat (num_of_Z 1%Z); VFloat (num_of_Z 0%Z); VFloat (num_of_Z 0%Z); VFloat (num_of_Z 1%Z); VFloat (num_of_Z 1%Z); VFloat (num_of_Z 1%Z); VFloat (num_of_Z 1%Z); VFloat (num_of_Z 1%Z); VFloat (num_of_Z 1%Z)])) None)) = true.
Proof. by vm_compute. Qed.
(** la/tests/deflarry_test.py:285 *)
Example deflarry__Test_binary__test___sub___5 :
  (labels_same (y ← make (Nda DFloat (Arr [3; 4] [VFloat (num_of_Z 0%Z); VFloat (num_of_Z 0%Z); VFloat (num_of_Z 1%Z); VFloat (num_of_Z 1%Z); VFloat (num_of_Z 0%Z); VFloat (num_of_Z 0%Z); VFloat (num_of_Z 1%Z); VFloat (num_of_Z 1%Z); VFloat (num_of_Z 1%Z); VFloat (num_of_Z 1%Z); VFloat (num_of_Z 1%Z); VFloat (num_of_Z 1%Z)])) None; larry_rarith ASub y (OpScalar (VFloat (num_of_Z 1%Z)))) (make (Nda DFloat (Arr [3; 4] [VFloat (num_of_Z 0%Z); VFloat (num_of_Z 0%Z); VFloat (num_of_Z 1%Z); VFloat (num_of_Z 1%Z); VFloat (num_of_Z 0%Z); VFloat (num_of_Z 0%Z); VFloat (num_of_Z 1%Z); VFloat (num_of_Z 1%Z); VFloat (num_of_Z 1%Z); VFloat (num_of_Z 1%Z); VFloat (num_of_Z 1%Z); VFloat (num_of_Z 1%Z)])) None)) = true.
Proof. by vm_compute. Qed.
(** la/tests/deflarry_test.py:305 *)
Example deflarry__Test_binary__test___sub___6 :
  (raises (y ← make (Nda DFloat (Arr [3; 4] [VFloat (num_of_Z 0%Z); VFloat (num_of_Z 0%Z); VFloat (num_of_Z 1%Z); VFloat (num_of_Z 1%Z); VFloat (num_of_Z 0%Z); VFloat (num_of_Z 0%Z); VFloat (num_of_Z 1%Z); VFloat (num_of_Z 1%Z); VFloat (num_of_Z 1%Z); VFloat (num_of_Z 1%Z); VFloat (num_of_Z 1%Z); VFloat (num_of_Z 1%Z)])) None; larry_arith AAdd y OpOther) TypeError) = true.
Proof. by vm_compute. Qed.
(** la/tests/deflarry_test.py:310 *)
Example deflarry__Test_binary__test___sub___7 :
  (labels_same (y ← make (Nda DFloat (Arr [2; 2] [VFloat (num_of_Z 1%Z); VFloat (num_of_Z 2%Z); VFloat (num_of_Z 3%Z); VFloat (num_of_Z 4%Z)])) None; z ← make (Nda DFloat (Arr [2; 2] [VFloat (num_of_Z 1%Z); VFloat (num_of_Z 2%Z); VFloat (num_of_Z 3%Z); VFloat (num_of_Z 4%Z)])) None; larry_arith ASub y (OpLarry z)) (make (Nda DFloat (Arr [2; 2] [VFloat (num_of_Z 1%Z); VFloat (num_of_Z 2%Z); VFloat (num_of_Z 3%Z); VFloat (num_of_Z 4%Z)])) None)) = true.
Proof. by vm_compute. Qed.
(** la/tests/deflarry_test.py:331 *)
Example deflarry__Test_binary__test___mul___1 :
  (x_near (y ← make (Nda DFloat (Arr [3; 4] [VFloat (num_of_Z 2%Z); VFloat (num_of_Z 2%Z); VFloat (num_of_Z 3%Z); VFloat (num_of_Z 1%Z); VFloat (num_of_Z 3%Z); VFloat (num_of_Z 2%Z); VFloat (num_of_Z 2%Z); VFloat (num_of_Z 1%Z); VFloat (num_of_Z 1%Z); VFloat (num_of_Z 1%Z); VFloat (num_of_Z 1%Z); VFloat (num_of_Z 1%Z)])) None; z ← make (Nda DFloat (Arr [2; 2] [VFloat (num_of_Z 1%Z); VFloat (num_of_Z 2%Z); VFloat (num_of_Z 3%Z); VFloat (num_of_Z 4%Z)])) None; larry_arith AMul y (OpLarry z)) [2; 2] [VFloat (num_of_Z 2%Z); VFloat (num_of_Z 4%Z); VFloat (num_of_Z 9%Z); VFloat (num_of_Z 8%Z)]) = true.
Proof. by vm_compute. Qed.
(** la/tests/deflarry_test.py:408 *)
Example deflarry__Test_binary__test___mul___4 :
  (x_near (y ← make (Nda DFloat (Arr [3; 4] [VFloat (num_of_Z 0%Z); VFloat (num_of_Z 0%Z); VFloat (num_of_Z 1%Z); VFloat (num_of_Z 1%Z); VFloat (num_of_Z 0%Z); VFloat (num_of_Z 0%Z); VFloat (num_of_Z 1%Z); VFloat (num_of_Z 1%Z); VFloat (num_of_Z 1%Z); VFloat (num_of_Z 1%Z); VFloat (num_of_Z 1%Z); VFloat (num_of_Z 1%Z)])) None; larry_arith AMul y (OpScalar (VFloat (num_of_Z 1%Z)))) [3; 4] [VFloat (num_of_Z 0%Z); VFloat (num_of_Z 0%Z); VFloat (num_of_Z 1%Z); VFloat (num_of_Z 1%Z); VFloat (num_of_Z 0%Z); VFloat (num_of_Z 0%Z); VFloat (num_of_Z 1%Z); VFloat (num_of_Z 1%Z); VFloat (num_of_Z 1%Z); VFloat (num_of_Z 1%Z); VFloat (num_of_Z 1%Z); VFloat (num_of_Z 1%Z)]) = true.
Proof. by vm_compute. Qed.
(** la/tests/deflarry_test.py:433 *)
Example deflarry__Test_binary__test___mul___5 :
  (x_near (y ← make (Nda DFloat (Arr [3; 4] [VFloat (num_of_Z 0%Z); VFloat (num_of_Z 0%Z); VFloat (num_of_Z 1%Z); VFloat (num_of_Z 1%Z); VFloat (num_of_Z 0%Z); VFloat (num_of_Z 0%Z); VFloat (num_of_Z 1%Z); VFloat (num_of_Z 1%Z); VFloat (num_of_Z 1%Z); VFloat (num_of_Z 1%Z); VFloat (num_of_Z 1%Z); VFloat (num_of_Z 1%Z)])) None; larry_rarith AMul y (OpScalar (VFloat (num_of_Z 1%Z)))) [3; 4] [VFloat (num_of_Z 0%Z); VFloat (num_of_Z 0%Z); VFloat (num_of_Z 1%Z); VFloat (num_of_Z 1%Z); VFloat (num_of_Z 0%Z); VFloat (num_of_Z 0%Z); VFloat (num_of_Z 1%Z); VFloat (num_of_Z 1%Z); VFloat (num_of_Z 1%Z); VFloat (num_of_Z 1%Z); VFloat (num_of_Z 1%Z); VFloat (num_of_Z 1%Z)]) = true.
Proof. by vm_compute. Qed.
(** la/tests/deflarry_test.py:458 *)
Example deflarry__Test_binary__test___mul___6 :
  (raises (y ← make (Nda DFloat (Arr [2; 2] [VFloat (num_of_Z 1%Z); VFloat (num_of_Z 2%Z); VFloat (num_of_Z 3%Z); VFloat (num_of_Z 4%Z)])) None; larry_arith AMul y OpOther) TypeError) = true.
Proof. by vm_compute. Qed.
(** la/tests/deflarry_test.py:463 *)
Example deflarry__Test_binary__test___mul___7 :
  (labels_same (y ← make (Nda DFloat (Arr [2; 2] [VFloat (num_of_Z 1%Z); VFloat (num_of_Z 2%Z); VFloat (num_of_Z 3%Z); VFloat (num_of_Z 4%Z)])) None; z ← make (Nda DFloat (Arr [2; 2] [VFloat (num_of_Z 1%Z); VFloat (num_of_Z 2%Z); VFloat (num_of_Z 3%Z); VFloat (num_of_Z 4%Z)])) None; larry_arith AMul y (OpLarry z)) (make (Nda DFloat (Arr [2; 2] [VFloat (num_of_Z 1%Z); VFloat (num_of_Z 2%Z); VFloat (num_of_Z 3%Z); VFloat (num_of_Z 4%Z)])) None)) = true.
Proof. by vm_compute. Qed.
(** la/tests/deflarry_test.py:483 *)
Example deflarry__Test_binary__test___div___1 :
  (x_near (y ← make (Nda DFloat (Arr [3; 4] [VFloat (num_of_Z 2%Z); VFloat (num_of_Z 2%Z); VFloat (num_of_Z 3%Z); VFloat (num_of_Z 1%Z); VFloat (num_of_Z 3%Z); VFloat (num_of_Z 2%Z); VFloat (num_of_Z 2%Z); VFloat (num_of_Z 1%Z); VFloat (num_of_Z 1%Z); VFloat (num_of_Z 1%Z); VFloat (num_of_Z 1%Z); VFloat (num_of_Z 1%Z)])) None; z ← make (Nda DFloat (Arr [2; 2] [VFloat (num_of_Z 1%Z); VFloat (num_of_Z 2%Z); VFloat (num_of_Z 3%Z); VFloat (num_of_Z 4%Z)])) None; larry_truediv Py3 y (OpLarry z)) [2; 2] [VFloat (num_of_Z 2%Z); VFloat (num_of_Z 1%Z); VFloat (num_of_Z 1%Z); VFloat (ra 1%Z 2)]) = true.
Proof. by vm_compute. Qed.
(** la/tests/deflarry_test.py:623 *)
Example deflarry__Test_binary__test___div___7 :
  (labels_same (y ← make (Nda DFloat (Arr [2; 2] [VFloat (num_of_Z 1%Z); VFloat (num_of_Z 2%Z); VFloat (num_of_Z 3%Z); VFloat (num_of_Z 4%Z)])) None; z ← make (Nda DFloat (Arr [2; 2] [VFloat (num_of_Z 1%Z); VFloat (num_of_Z 2%Z); VFloat (num_of_Z 3%Z); VFloat (num_of_Z 4%Z)])) None; larry_truediv Py3 y (OpLarry z)) (make (Nda DFloat (Arr [2; 2] [VFloat (num_of_Z 1%Z); VFloat (num_of_Z 2%Z); VFloat (num_of_Z 3%Z); VFloat (num_of_Z 4%Z)])) None)) = true.
Proof. by vm_compute. Qed.
(** la/tests/deflarry_test.py:671 *)
Example deflarry__Test_reduce__test_sum_1 :
  (v_near (val_of_out (y ← make (Nda DFloat (Arr [3; 2] [VFloat (num_of_Z 1%Z); VFloat (NaN); VFloat (num_of_Z 1%Z); VFloat (num_of_Z 1%Z); VFloat (num_of_Z 1%Z); VFloat (num_of_Z 1%Z)])) None; larry_reduce RSum y None)) (VFloat (num_of_Z 5%Z))) = true.
Proof. by vm_compute. Qed.
(** la/tests/deflarry_test.py:702 *)
Example deflarry__Test_reduce__test_sum_4 :
  (raises (y ← make (Nda DFloat (Arr [3; 2] [VFloat (num_of_Z 1%Z); VFloat (NaN); VFloat (num_of_Z 1%Z); VFloat (num_of_Z 1%Z); VFloat (num_of_Z 1%Z); VFloat (num_of_Z 1%Z)])) None; larry_reduce RSum y (Some 3%Z)) ValueError) = true.
Proof. by vm_compute. Qed.
(** la/tests/deflarry_test.py:706 *)
Example deflarry__Test_reduce__test_sum_5 :
  (v_near (val_of_out (y ← make (Nda DFloat (Arr [3] [VFloat (num_of_Z 1%Z); VFloat (num_of_Z 2%Z); VFloat (num_of_Z 3%Z)])) None; larry_reduce RSum y None)) (VFloat (num_of_Z 6%Z))) = true.
Proof. by vm_compute. Qed.
(** la/tests/deflarry_test.py:713 *)
Example deflarry__Test_reduce__test_prod_1 :
  (v_near (val_of_out (y ← make (Nda DFloat (Arr [3; 2] [VFloat (num_of_Z 1%Z); VFloat (NaN); VFloat (num_of_Z 1%Z); VFloat (num_of_Z 1%Z); VFloat (num_of_Z 1%Z); VFloat (num_of_Z 1%Z)])) None; larry_prod y None)) (VFloat (num_of_Z 1%Z))) = true.
Proof. by vm_compute. Qed.
(** la/tests/deflarry_test.py:744 *)
Example deflarry__Test_reduce__test_prod_4 :
  (raises (y ← make (Nda DFloat (Arr [3; 2] [VFloat (num_of_Z 1%Z); VFloat (NaN); VFloat (num_of_Z 1%Z); VFloat (num_of_Z 1%Z); VFloat (num_of_Z 1%Z); VFloat (num_of_Z 1%Z)])) None; larry_prod y (Some 3%Z)) ValueError) = true.
Proof. by vm_compute. Qed.
(** la/tests/deflarry_test.py:748 *)
Example deflarry__Test_reduce__test_prod_5 :
  (v_near (val_of_out (y ← make (Nda DFloat (Arr [3] [VFloat (num_of_Z 1%Z); VFloat (num_of_Z 2%Z); VFloat (num_of_Z 3%Z)])) None; larry_prod y None)) (VFloat (num_of_Z 6%Z))) = true.
Proof. by vm_compute. Qed.
(** la/tests/deflarry_test.py:755 *)
Example deflarry__Test_reduce__test_prod_6 :
  (larry_same (lar_of_out (y ← make (Nda DFloat (Arr [3; 2] [VFloat (NaN); VFloat (num_of_Z 2%Z); VFloat (NaN); VFloat (NaN); VFloat (NaN); VFloat (num_of_Z 3%Z)])) None; larry_prod y (Some 0%Z))) (make (Nda DFloat (Arr [2] [VFloat (NaN); VFloat (num_of_Z 6%Z)])) None)) = true.
Proof. by vm_compute. Qed.
(** la/tests/deflarry_test.py:765 *)
Example deflarry__Test_reduce__test_prod_7 :
  (larry_same (lar_of_out (y ← make (Nda DFloat (Arr [3; 2] [VFloat (NaN); VFloat (num_of_Z 2%Z); VFloat (NaN); VFloat (NaN); VFloat (NaN); VFloat (num_of_Z 3%Z)])) None; larry_prod y (Some 1%Z))) (make (Nda DFloat (Arr [3] [VFloat (num_of_Z 2%Z); VFloat (NaN); VFloat (num_of_Z 3%Z)])) None)) = true.
Proof. by vm_compute. Qed.
(** la/tests/deflarry_test.py:777 *)
Example deflarry__Test_reduce__test_mean_1 :
  (v_near (val_of_out (y ← make (Nda DFloat (Arr [3; 2] [VFloat (num_of_Z 1%Z); VFloat (NaN); VFloat (num_of_Z 1%Z); VFloat (num_of_Z 1%Z); VFloat (num_of_Z 1%Z); VFloat (num_of_Z 1%Z)])) None; larry_reduce RMean y None)) (VFloat (num_of_Z 1%Z))) = true.
Proof. by vm_compute. Qed.
(** la/tests/deflarry_test.py:808 *)
Example deflarry__Test_reduce__test_mean_4 :
  (raises (y ← make (Nda DFloat (Arr [3; 2] [VFloat (num_of_Z 1%Z); VFloat (NaN); VFloat (num_of_Z 1%Z); VFloat (num_of_Z 1%Z); VFloat (num_of_Z 1%Z); VFloat (num_of_Z 1%Z)])) None; larry_reduce RMean y (Some 3%Z)) ValueError) = true.
Proof. by vm_compute. Qed.
(** la/tests/deflarry_test.py:812 *)
Example deflarry__Test_reduce__test_mean_5 :
  (v_near (val_of_out (y ← make (Nda DFloat (Arr [3] [VFloat (num_of_Z 1%Z); VFloat (num_of_Z 2%Z); VFloat (num_of_Z 3%Z)])) None; larry_reduce RMean y None)) (VFloat (num_of_Z 2%Z))) = true.
Proof. by vm_compute. Qed.
(** la/tests/deflarry_test.py:845 *)
Example deflarry__Test_reduce__test_median_1 :
  (v_near (val_of_out (y ← make (Nda DFloat (Arr [3; 2] [VFloat (num_of_Z 1%Z); VFloat (NaN); VFloat (num_of_Z 1%Z); VFloat (num_of_Z 1%Z); VFloat (num_of_Z 1%Z); VFloat (num_of_Z 1%Z)])) None; larry_reduce RMedian y None)) (VFloat (num_of_Z 1%Z))) = true.
Proof. by vm_compute. Qed.
(** la/tests/deflarry_test.py:876 *)
Example deflarry__Test_reduce__test_median_4 :
  (raises (y ← make (Nda DFloat (Arr [3; 2] [VFloat (num_of_Z 1%Z); VFloat (NaN); VFloat (num_of_Z 1%Z); VFloat (num_of_Z 1%Z); VFloat (num_of_Z 1%Z); VFloat (num_of_Z 1%Z)])) None; larry_reduce RMedian y (Some 3%Z)) ValueError) = true.
Proof. by vm_compute. Qed.
(** la/tests/deflarry_test.py:880 *)
Example deflarry__Test_reduce__test_median_5 :
  (v_near (val_of_out (y ← make (Nda DFloat (Arr [3] [VFloat (num_of_Z 1%Z); VFloat (num_of_Z 2%Z); VFloat (num_of_Z 3%Z)])) None; larry_reduce RMedian y None)) (VFloat (num_of_Z 2%Z))) = true.
Proof. by vm_compute. Qed.
(** la/tests/deflarry_test.py:887 *)
Example deflarry__Test_reduce__test_std_1 :
  (v_near (val_of_out (y ← make (Nda DFloat (Arr [3; 2] [VFloat (num_of_Z 1%Z); VFloat (NaN); VFloat (num_of_Z 1%Z); VFloat (num_of_Z 1%Z); VFloat (num_of_Z 1%Z); VFloat (num_of_Z 1%Z)])) None; larry_std approx_sqrt y None 0%Z)) (VFloat (num_of_Z 0%Z))) = true.
Proof. by vm_compute. Qed.
(** la/tests/deflarry_test.py:920 *)
Example deflarry__Test_reduce__test_std_4 :
  (raises (y ← make (Nda DFloat (Arr [3; 2] [VFloat (num_of_Z 1%Z); VFloat (NaN); VFloat (num_of_Z 1%Z); VFloat (num_of_Z 1%Z); VFloat (num_of_Z 1%Z); VFloat (num_of_Z 1%Z)])) None; larry_std approx_sqrt y (Some 3%Z) 0%Z) ValueError) = true.
Proof. by vm_compute. Qed.
(** la/tests/deflarry_test.py:931 *)
Example deflarry__Test_reduce__test_std_6 :
  (v_near (val_of_out (y ← make (Nda DInt (Arr [3] [VInt 1%Z; VInt 1%Z; VInt 1%Z])) None; larry_std approx_sqrt y (Some (-1)%Z) 0%Z)) (VInt 0%Z)) = true.
Proof. by vm_compute. Qed.
(** la/tests/deflarry_test.py:936 *)
Example deflarry__Test_reduce__test_var_1 :
  (v_near (val_of_out (y ← make (Nda DFloat (Arr [3; 2] [VFloat (num_of_Z 1%Z); VFloat (NaN); VFloat (num_of_Z 1%Z); VFloat (num_of_Z 1%Z); VFloat (num_of_Z 1%Z); VFloat (num_of_Z 1%Z)])) None; larry_reduce (RVar 0%Z) y None)) (VFloat (num_of_Z 0%Z))) = true.
Proof. by vm_compute. Qed.
(** la/tests/deflarry_test.py:969 *)
Example deflarry__Test_reduce__test_var_4 :
  (raises (y ← make (Nda DFloat (Arr [3; 2] [VFloat (num_of_Z 1%Z); VFloat (NaN); VFloat (num_of_Z 1%Z); VFloat (num_of_Z 1%Z); VFloat (num_of_Z 1%Z); VFloat (num_of_Z 1%Z)])) None; larry_reduce (RVar 0%Z) y (Some 3%Z)) ValueError) = true.
Proof. by vm_compute. Qed.
(** la/tests/deflarry_test.py:980 *)
Example deflarry__Test_reduce__test_var_6 :
  (v_near (val_of_out (y ← make (Nda DInt (Arr [3] [VInt 1%Z; VInt 1%Z; VInt 1%Z])) None; larry_reduce (RVar 0%Z) y (Some (-1)%Z))) (VInt 0%Z)) = true.
Proof. by vm_compute. Qed.
(** la/tests/deflarry_test.py:985 *)
Example deflarry__Test_reduce__test_max_1 :
  (v_near (val_of_out (y ← make (Nda DFloat (Arr [3; 2] [VFloat (num_of_Z 1%Z); VFloat (NaN); VFloat (num_of_Z 1%Z); VFloat (num_of_Z 1%Z); VFloat (num_of_Z 1%Z); VFloat (num_of_Z 1%Z)])) None; larry_reduce RMax y None)) (VFloat (num_of_Z 1%Z))) = true.
Proof. by vm_compute. Qed.
(** la/tests/deflarry_test.py:1000 *)
Example deflarry__Test_reduce__test_max_3 :
  (larry_same (lar_of_out (y ← make (Nda DFloat (Arr [3; 2] [VFloat (num_of_Z 1%Z); VFloat (NaN); VFloat (num_of_Z 1%Z); VFloat (num_of_Z 1%Z); VFloat (num_of_Z 1%Z); VFloat (num_of_Z 1%Z)])) None; larry_reduce RMax y (Some 1%Z))) (make (Nda DFloat (Arr [3] [VFloat (num_of_Z 1%Z); VFloat (num_of_Z 1%Z); VFloat (num_of_Z 1%Z)])) None)) = true.
Proof. by vm_compute. Qed.
(** la/tests/deflarry_test.py:1007 *)
Example deflarry__Test_reduce__test_max_4 :
  (raises (y ← make (Nda DFloat (Arr [3; 2] [VFloat (num_of_Z 1%Z); VFloat (NaN); VFloat (num_of_Z 1%Z); VFloat (num_of_Z 1%Z); VFloat (num_of_Z 1%Z); VFloat (num_of_Z 1%Z)])) None; larry_reduce RMax y (Some 3%Z)) ValueError) = true.
Proof. by vm_compute. Qed.
(** la/tests/deflarry_test.py:1011 *)
Example deflarry__Test_reduce__test_max_5 :
  (v_near (val_of_out (y ← make (Nda DFloat (Arr [3] [VFloat (num_of_Z 1%Z); VFloat (num_of_Z 2%Z); VFloat (num_of_Z 3%Z)])) None; larry_reduce RMax y None)) (VFloat (num_of_Z 3%Z))) = true.
Proof. by vm_compute. Qed.
(** la/tests/deflarry_test.py:1018 *)
Example deflarry__Test_reduce__test_min_1 :
  (v_near (val_of_out (y ← make (Nda DFloat (Arr [3; 2] [VFloat (num_of_Z 1%Z); VFloat (NaN); VFloat (num_of_Z 1%Z); VFloat (num_of_Z 1%Z); VFloat (num_of_Z 1%Z); VFloat (num_of_Z 1%Z)])) None; larry_reduce RMin y None)) (VFloat (num_of_Z 1%Z))) = true.
Proof. by vm_compute. Qed.
(** la/tests/deflarry_test.py:1025 *)
Example deflarry__Test_reduce__test_min_2 :
  (larry_same (lar_of_out (y ← make (Nda DFloat (Arr [3; 2] [VFloat (num_of_Z 1%Z); VFloat (NaN); VFloat (num_of_Z 1%Z); VFloat (num_of_Z 1%Z); VFloat (num_of_Z 1%Z); VFloat (num_of_Z 1%Z)])) None; larry_reduce RMin y (Some 0%Z))) (make (Nda DFloat (Arr [2] [VFloat (num_of_Z 1%Z); VFloat (num_of_Z 1%Z)])) None)) = true.
Proof. by vm_compute. Qed.
(** la/tests/deflarry_test.py:1032 *)
Example deflarry__Test_reduce__test_min_3 :
  (larry_same (lar_of_out (y ← make (Nda DFloat (Arr [3; 2] [VFloat (num_of_Z 1%Z); VFloat (NaN); VFloat (num_of_Z 1%Z); VFloat (num_of_Z 1%Z); VFloat (num_of_Z 1%Z); VFloat (num_of_Z 1%Z)])) None; larry_reduce RMin y (Some 1%Z))) (make (Nda DFloat (Arr [3] [VFloat (num_of_Z 1%Z); VFloat (num_of_Z 1%Z); VFloat (num_of_Z 1%Z)])) None)) = true.
Proof. by vm_compute. Qed.
(** la/tests/deflarry_test.py:1039 *)
Example deflarry__Test_reduce__test_min_4 :
  (raises (y ← make (Nda DFloat (Arr [3; 2] [VFloat (num_of_Z 1%Z); VFloat (NaN); VFloat (num_of_Z 1%Z); VFloat (num_of_Z 1%Z); VFloat (num_of_Z 1%Z); VFloat (num_of_Z 1%Z)])) None; larry_reduce RMin y (Some 3%Z)) ValueError) = true.
Proof. by vm_compute. Qed.
(** la/tests/deflarry_test.py:1043 *)
Example deflarry__Test_reduce__test_min_5 :
  (v_near (val_of_out (y ← make (Nda DFloat (Arr [3] [VFloat (num_of_Z 1%Z); VFloat (num_of_Z 2%Z); VFloat (num_of_Z 3%Z)])) None; larry_reduce RMin y None)) (VFloat (num_of_Z 1%Z))) = true.
Proof. by vm_compute. Qed.
(** la/tests/deflarry_test.py:1050 *)
Example deflarry__Test_reduce__test_lastrank_1 :
  (xs_near (make (Nda DFloat (Arr [3] [VFloat (NaN); VFloat (num_of_Z 1%Z); VFloat (num_of_Z (-1)%Z)])) (Some [[LInt 0%Z; LInt 1%Z; LInt 2%Z]])) (lar_of_out (y ← make (Nda DFloat (Arr [3; 3] [VFloat (num_of_Z 1%Z); VFloat (NaN); VFloat (NaN); VFloat (num_of_Z 0%Z); VFloat (num_of_Z 1%Z); VFloat (num_of_Z 3%Z); VFloat (num_of_Z 1%Z); VFloat (num_of_Z 1%Z); VFloat (num_of_Z 0%Z)])) None; larry_lastrank y (-1)%Z))) &&
  (labels_same (lar_of_out (y ← make (Nda DFloat (Arr [3; 3] [VFloat (num_of_Z 1%Z); VFloat (NaN); VFloat (NaN); VFloat (num_of_Z 0%Z); VFloat (num_of_Z 1%Z); VFloat (num_of_Z 3%Z); VFloat (num_of_Z 1%Z); VFloat (num_of_Z 1%Z); VFloat (num_of_Z 0%Z)])) None; larry_lastrank y (-1)%Z)) (make (Nda DFloat (Arr [3] [VFloat (NaN); VFloat (num_of_Z 1%Z); VFloat (num_of_Z (-1)%Z)])) (Some [[LInt 0%Z; LInt 1%Z; LInt 2%Z]]))) = true.
Proof. by vm_compute. Qed.
(** la/tests/deflarry_test.py:1065 *)
Example deflarry__Test_reduce__test_lastrank_2 :
  (xs_near (make (Nda DFloat (Arr [3] [VFloat (NaN); VFloat (num_of_Z 1%Z); VFloat (num_of_Z (-1)%Z)])) (Some [[LInt 0%Z; LInt 1%Z; LInt 2%Z]])) (lar_of_out (y ← make (Nda DFloat (Arr [3; 3] [VFloat (num_of_Z 1%Z); VFloat (NaN); VFloat (NaN); VFloat (num_of_Z 0%Z); VFloat (num_of_Z 1%Z); VFloat (num_of_Z 3%Z); VFloat (num_of_Z 1%Z); VFloat (num_of_Z 1%Z); VFloat (num_of_Z 0%Z)])) None; larry_lastrank y (-1)%Z))) &&
  (labels_same (lar_of_out (y ← make (Nda DFloat (Arr [3; 3] [VFloat (num_of_Z 1%Z); VFloat (NaN); VFloat (NaN); VFloat (num_of_Z 0%Z); VFloat (num_of_Z 1%Z); VFloat (num_of_Z 3%Z); VFloat (num_of_Z 1%Z); VFloat (num_of_Z 1%Z); VFloat (num_of_Z 0%Z)])) None; larry_lastrank y (-1)%Z)) (make (Nda DFloat (Arr [3] [VFloat (NaN); VFloat (num_of_Z 1%Z); VFloat (num_of_Z (-1)%Z)])) (Some [[LInt 0%Z; LInt 1%Z; LInt 2%Z]]))) = true.
Proof. by vm_compute. Qed.
(** la/tests/deflarry_test.py:1110 *)
Example deflarry__Test_comparison__test_eq_1 :
  (x_near (lar_of_out (y ← make (Nda DFloat (Arr [3; 2] [VFloat (num_of_Z 1%Z); VFloat (NaN); VFloat (num_of_Z 1%Z); VFloat (num_of_Z 1%Z); VFloat (num_of_Z 1%Z); VFloat (num_of_Z 3%Z)])) None; larry_compare CEq y (OpScalar (VFloat (num_of_Z 1%Z))))) [3; 2] [VBool true; VBool false; VBool true; VBool true; VBool true; VBool false]) &&
  (label_is (lar_of_out (y ← make (Nda DFloat (Arr [3; 2] [VFloat (num_of_Z 1%Z); VFloat (NaN); VFloat (num_of_Z 1%Z); VFloat (num_of_Z 1%Z); VFloat (num_of_Z 1%Z); VFloat (num_of_Z 3%Z)])) None; larry_compare CEq y (OpScalar (VFloat (num_of_Z 1%Z))))) [[LInt 0%Z; LInt 1%Z; LInt 2%Z]; [LInt 0%Z; LInt 1%Z]]) = true.
Proof. by vm_compute. Qed.
(** la/tests/deflarry_test.py:1121 *)
Example deflarry__Test_comparison__test_eq_2 :
  (x_near (lar_of_out (y ← make (Nda DFloat (Arr [3; 2] [VFloat (num_of_Z 1%Z); VFloat (NaN); VFloat (num_of_Z 1%Z); VFloat (num_of_Z 1%Z); VFloat (num_of_Z 1%Z); VFloat (num_of_Z 3%Z)])) None; larry_compare CEq y (OpArr (Nda DFloat (Arr [3; 2] [VFloat (num_of_Z 0%Z); VFloat (num_of_Z 1%Z); VFloat (num_of_Z 1%Z); VFloat (num_of_Z 1%Z); VFloat (num_of_Z 1%Z); VFloat (num_of_Z 1%Z)]))))) [3; 2] [VBool false; VBool false; VBool true; VBool true; VBool true; VBool false]) &&
  (label_is (lar_of_out (y ← make (Nda DFloat (Arr [3; 2] [VFloat (num_of_Z 1%Z); VFloat (NaN); VFloat (num_of_Z 1%Z); VFloat (num_of_Z 1%Z); VFloat (num_of_Z 1%Z); VFloat (num_of_Z 3%Z)])) None; larry_compare CEq y (OpArr (Nda DFloat (Arr [3; 2] [VFloat (num_of_Z 0%Z); VFloat (num_of_Z 1%Z); VFloat (num_of_Z 1%Z); VFloat (num_of_Z 1%Z); VFloat (num_of_Z 1%Z); VFloat (num_of_Z 1%Z)]))))) [[LInt 0%Z; LInt 1%Z; LInt 2%Z]; [LInt 0%Z; LInt 1%Z]]) = true.
Proof. by vm_compute. Qed.
(** la/tests/deflarry_test.py:1132 *)
Example deflarry__Test_comparison__test_eq_3 :
  (x_near (lar_of_out (y ← make (Nda DFloat (Arr [3; 2] [VFloat (num_of_Z 1%Z); VFloat (NaN); VFloat (num_of_Z 1%Z); VFloat (num_of_Z 1%Z); VFloat (num_of_Z 1%Z); VFloat (num_of_Z 3%Z)])) None; z ← make (Nda DFloat (Arr [3; 2] [VFloat (num_of_Z 1%Z); VFloat (NaN); VFloat (num_of_Z 1%Z); VFloat (num_of_Z 1%Z); VFloat (num_of_Z 1%Z); VFloat (num_of_Z 3%Z)])) None; larry_compare CEq y (OpLarry z))) [3; 2] [VBool true; VBool false; VBool true; VBool true; VBool true; VBool true]) &&
  (label_is (lar_of_out (y ← make (Nda DFloat (Arr [3; 2] [VFloat (num_of_Z 1%Z); VFloat (NaN); VFloat (num_of_Z 1%Z); VFloat (num_of_Z 1%Z); VFloat (num_of_Z 1%Z); VFloat (num_of_Z 3%Z)])) None; z ← make (Nda DFloat (Arr [3; 2] [VFloat (num_of_Z 1%Z); VFloat (NaN); VFloat (num_of_Z 1%Z); VFloat (num_of_Z 1%Z); VFloat (num_of_Z 1%Z); VFloat (num_of_Z 3%Z)])) None; larry_compare CEq y (OpLarry z))) [[LInt 0%Z; LInt 1%Z; LInt 2%Z]; [LInt 0%Z; LInt 1%Z]]) = true.
Proof. by vm_compute. Qed.
(** la/tests/deflarry_test.py:1148 *)
Example deflarry__Test_comparison__test_eq_5 :
  (x_near (lar_of_out (y ← make (Nda DFloat (Arr [3] [VFloat (num_of_Z 1%Z); VFloat (num_of_Z 2%Z); VFloat (NaN)])) None; larry_compare CEq y (OpArr (Nda DFloat (Arr [3] [VFloat (num_of_Z 1%Z); VFloat (num_of_Z 0%Z); VFloat (num_of_Z 1%Z)]))))) [3] [VBool true; VBool false; VBool false]) &&
  (label_is (lar_of_out (y ← make (Nda DFloat (Arr [3] [VFloat (num_of_Z 1%Z); VFloat (num_of_Z 2%Z); VFloat (NaN)])) None; larry_compare CEq y (OpArr (Nda DFloat (Arr [3] [VFloat (num_of_Z 1%Z); VFloat (num_of_Z 0%Z); VFloat (num_of_Z 1%Z)]))))) [[LInt 0%Z; LInt 1%Z; LInt 2%Z]]) = true.
Proof. by vm_compute. Qed.
(** la/tests/deflarry_test.py:1171 *)
Example deflarry__Test_comparison__test_ne_1 :
  (x_near (lar_of_out (y ← make (Nda DFloat (Arr [3; 2] [VFloat (num_of_Z 1%Z); VFloat (NaN); VFloat (num_of_Z 1%Z); VFloat (num_of_Z 1%Z); VFloat (num_of_Z 1%Z); VFloat (num_of_Z 3%Z)])) None; larry_compare CNe y (OpScalar (VFloat (num_of_Z 1%Z))))) [3; 2] [VBool false; VBool true; VBool false; VBool false; VBool false; VBool true]) &&
  (label_is (lar_of_out (y ← make (Nda DFloat (Arr [3; 2] [VFloat (num_of_Z 1%Z); VFloat (NaN); VFloat (num_of_Z 1%Z); VFloat (num_of_Z 1%Z); VFloat (num_of_Z 1%Z); VFloat (num_of_Z 3%Z)])) None; larry_compare CNe y (OpScalar (VFloat (num_of_Z 1%Z))))) [[LInt 0%Z; LInt 1%Z; LInt 2%Z]; [LInt 0%Z; LInt 1%Z]]) = true.
Proof. by vm_compute. Qed.
(** la/tests/deflarry_test.py:1182 *)
Example deflarry__Test_comparison__test_ne_2 :
  (x_near (lar_of_out (y ← make (Nda DFloat (Arr [3; 2] [VFloat (num_of_Z 1%Z); VFloat (NaN); VFloat (num_of_Z 1%Z); VFloat (num_of_Z 1%Z); VFloat (num_of_Z 1%Z); VFloat (num_of_Z 3%Z)])) None; larry_compare CNe y (OpArr (Nda DFloat (Arr [3; 2] [VFloat (num_of_Z 0%Z); VFloat (num_of_Z 1%Z); VFloat (num_of_Z 1%Z); VFloat (num_of_Z 1%Z); VFloat (num_of_Z 1%Z); VFloat (num_of_Z 1%Z)]))))) [3; 2] [VBool true; VBool true; VBool false; VBool false; VBool false; VBool true]) &&
  (label_is (lar_of_out (y ← make (Nda DFloat (Arr [3; 2] [VFloat (num_of_Z 1%Z); VFloat (NaN); VFloat (num_of_Z 1%Z); VFloat (num_of_Z 1%Z); VFloat (num_of_Z 1%Z); VFloat (num_of_Z 3%Z)])) None; larry_compare CNe y (OpArr (Nda DFloat (Arr [3; 2] [VFloat (num_of_Z 0%Z); VFloat (num_of_Z 1%Z); VFloat (num_of_Z 1%Z); VFloat (num_of_Z 1%Z); VFloat (num_of_Z 1%Z); VFloat (num_of_Z 1%Z)]))))) [[LInt 0%Z; LInt 1%Z; LInt 2%Z]; [LInt 0%Z; LInt 1%Z]]) = true.
Proof. by vm_compute. Qed.
(** la/tests/deflarry_test.py:1193 *)
Example deflarry__Test_comparison__test_ne_3 :
  (x_near (lar_of_out (y ← make (Nda DFloat (Arr [3; 2] [VFloat (num_of_Z 1%Z); VFloat (NaN); VFloat (num_of_Z 1%Z); VFloat (num_of_Z 1%Z); VFloat (num_of_Z 1%Z); VFloat (num_of_Z 3%Z)])) None; z ← make (Nda DFloat (Arr [3; 2] [VFloat (num_of_Z 1%Z); VFloat (NaN); VFloat (num_of_Z 1%Z); VFloat (num_of_Z 1%Z); VFloat (num_of_Z 1%Z); VFloat (num_of_Z 3%Z)])) None; larry_compare CNe y (OpLarry z))) [3; 2] [VBool false; VBool true; VBool false; VBool false; VBool false; VBool false]) &&
  (label_is (lar_of_out (y ← make (Nda DFloat (Arr [3; 2] [VFloat (num_of_Z 1%Z); VFloat (NaN); VFloat (num_of_Z 1%Z); VFloat (num_of_Z 1%Z); VFloat (num_of_Z 1%Z); VFloat (num_of_Z 3%Z)])) None; z ← make (Nda DFloat (Arr [3; 2] [VFloat (num_of_Z 1%Z); VFloat (NaN); VFloat (num_of_Z 1%Z); VFloat (num_of_Z 1%Z); VFloat (num_of_Z 1%Z); VFloat (num_of_Z 3%Z)])) None; larry_compare CNe y (OpLarry z))) [[LInt 0%Z; LInt 1%Z; LInt 2%Z]; [LInt 0%Z; LInt 1%Z]]) = true.
Proof. by vm_compute. Qed.
(** la/tests/deflarry_test.py:1223 *)
Example deflarry__Test_comparison__test_lt_1 :
  (x_near (lar_of_out (y ← make (Nda DFloat (Arr [3; 2] [VFloat (num_of_Z 1%Z); VFloat (NaN); VFloat (num_of_Z 1%Z); VFloat (num_of_Z 1%Z); VFloat (num_of_Z 1%Z); VFloat (num_of_Z 3%Z)])) None; larry_compare CLt y (OpScalar (VFloat (num_of_Z 1%Z))))) [3; 2] [VBool false; VBool false; VBool false; VBool false; VBool false; VBool false]) &&
  (label_is (lar_of_out (y ← make (Nda DFloat (Arr [3; 2] [VFloat (num_of_Z 1%Z); VFloat (NaN); VFloat (num_of_Z 1%Z); VFloat (num_of_Z 1%Z); VFloat (num_of_Z 1%Z); VFloat (num_of_Z 3%Z)])) None; larry_compare CLt y (OpScalar (VFloat (num_of_Z 1%Z))))) [[LInt 0%Z; LInt 1%Z; LInt 2%Z]; [LInt 0%Z; LInt 1%Z]]) = true.
Proof. by vm_compute. Qed.
(** la/tests/deflarry_test.py:1234 *)
Example deflarry__Test_comparison__test_lt_2 :
  (x_near (lar_of_out (y ← make (Nda DFloat (Arr [3; 2] [VFloat (num_of_Z 1%Z); VFloat (NaN); VFloat (num_of_Z 1%Z); VFloat (num_of_Z 1%Z); VFloat (num_of_Z 1%Z); VFloat (num_of_Z 3%Z)])) None; larry_compare CLt y (OpArr (Nda DFloat (Arr [3; 2] [VFloat (num_of_Z 0%Z); VFloat (num_of_Z 1%Z); VFloat (num_of_Z 1%Z); VFloat (num_of_Z 1%Z); VFloat (num_of_Z 1%Z); VFloat (num_of_Z 1%Z)]))))) [3; 2] [VBool false; VBool false; VBool false; VBool false; VBool false; VBool false]) &&
  (label_is (lar_of_out (y ← make (Nda DFloat (Arr [3; 2] [VFloat (num_of_Z 1%Z); VFloat (NaN); VFloat (num_of_Z 1%Z); VFloat (num_of_Z 1%Z); VFloat (num_of_Z 1%Z); VFloat (num_of_Z 3%Z)])) None; larry_compare CLt y (OpArr (Nda DFloat (Arr [3; 2] [VFloat (num_of_Z 0%Z); VFloat (num_of_Z 1%Z); VFloat (num_of_Z 1%Z); VFloat (num_of_Z 1%Z); VFloat (num_of_Z 1%Z); VFloat (num_of_Z 1%Z)]))))) [[LInt 0%Z; LInt 1%Z; LInt 2%Z]; [LInt 0%Z; LInt 1%Z]]) = true.
Proof. by vm_compute. Qed.
(** la/tests/deflarry_test.py:1245 *)
Example deflarry__Test_comparison__test_lt_3 :
  (x_near (lar_of_out (y ← make (Nda DFloat (Arr [3; 2] [VFloat (num_of_Z 1%Z); VFloat (NaN); VFloat (num_of_Z 1%Z); VFloat (num_of_Z 1%Z); VFloat (num_of_Z 1%Z); VFloat (num_of_Z 3%Z)])) None; z ← make (Nda DFloat (Arr [3; 2] [VFloat (num_of_Z 1%Z); VFloat (NaN); VFloat (num_of_Z 1%Z); VFloat (num_of_Z 1%Z); VFloat (num_of_Z 1%Z); VFloat (num_of_Z 3%Z)])) None; larry_compare CLt y (OpLarry z))) [3; 2] [VBool false; VBool false; VBool false; VBool false; VBool false; VBool false]) &&
  (label_is (lar_of_out (y ← make (Nda DFloat (Arr [3; 2] [VFloat (num_of_Z 1%Z); VFloat (NaN); VFloat (num_of_Z 1%Z); VFloat (num_of_Z 1%Z); VFloat (num_of_Z 1%Z); VFloat (num_of_Z 3%Z)])) None; z ← make (Nda DFloat (Arr [3; 2] [VFloat (num_of_Z 1%Z); VFloat (NaN); VFloat (num_of_Z 1%Z); VFloat (num_of_Z 1%Z); VFloat (num_of_Z 1%Z); VFloat (num_of_Z 3%Z)])) None; larry_compare CLt y (OpLarry z))) [[LInt 0%Z; LInt 1%Z; LInt 2%Z]; [LInt 0%Z; LInt 1%Z]]) = true.
Proof. by vm_compute. Qed.
(** la/tests/deflarry_test.py:1261 *)
Example deflarry__Test_comparison__test_gt_1 :
  (x_near (lar_of_out (y ← make (Nda DFloat (Arr [3; 2] [VFloat (num_of_Z 1%Z); VFloat (NaN); VFloat (num_of_Z 1%Z); VFloat (num_of_Z 1%Z); VFloat (num_of_Z 1%Z); VFloat (num_of_Z 3%Z)])) None; larry_compare CGt y (OpScalar (VFloat (num_of_Z 1%Z))))) [3; 2] [VBool false; VBool false; VBool false; VBool false; VBool false; VBool true]) &&
  (label_is (lar_of_out (y ← make (Nda DFloat (Arr [3; 2] [VFloat (num_of_Z 1%Z); VFloat (NaN); VFloat (num_of_Z 1%Z); VFloat (num_of_Z 1%Z); VFloat (num_of_Z 1%Z); VFloat (num_of_Z 3%Z)])) None; larry_compare CGt y (OpScalar (VFloat (num_of_Z 1%Z))))) [[LInt 0%Z; LInt 1%Z; LInt 2%Z]; [LInt 0%Z; LInt 1%Z]]) = true.
Proof. by vm_compute. Qed.
(** la/tests/deflarry_test.py:1272 *)
Example deflarry__Test_comparison__test_gt_2 :
  (x_near (lar_of_out (y ← make (Nda DFloat (Arr [3; 2] [VFloat (num_of_Z 1%Z); VFloat (NaN); VFloat (num_of_Z 1%Z); VFloat (num_of_Z 1%Z); VFloat (num_of_Z 1%Z); VFloat (num_of_Z 3%Z)])) None; larry_compare CGt y (OpArr (Nda DFloat (Arr [3; 2] [VFloat (num_of_Z 0%Z); VFloat (num_of_Z 1%Z); VFloat (num_of_Z 1%Z); VFloat (num_of_Z 1%Z); VFloat (num_of_Z 1%Z); VFloat (num_of_Z 1%Z)]))))) [3; 2] [VBool true; VBool false; VBool false; VBool false; VBool false; VBool true]) &&
  (label_is (lar_of_out (y ← make (Nda DFloat (Arr [3; 2] [VFloat (num_of_Z 1%Z); VFloat (NaN); VFloat (num_of_Z 1%Z); VFloat (num_of_Z 1%Z); VFloat (num_of_Z 1%Z); VFloat (num_of_Z 3%Z)])) None; larry_compare CGt y (OpArr (Nda DFloat (Arr [3; 2] [VFloat (num_of_Z 0%Z); VFloat (num_of_Z 1%Z); VFloat (num_of_Z 1%Z); VFloat (num_of_Z 1%Z); VFloat (num_of_Z 1%Z); VFloat (num_of_Z 1%Z)]))))) [[LInt 0%Z; LInt 1%Z; LInt 2%Z]; [LInt 0%Z; LInt 1%Z]]) = true.
Proof. by vm_compute. Qed.
(** la/tests/deflarry_test.py:1283 *)
Example deflarry__Test_comparison__test_gt_3 :
  (x_near (lar_of_out (y ← make (Nda DFloat (Arr [3; 2] [VFloat (num_of_Z 1%Z); VFloat (NaN); VFloat (num_of_Z 1%Z); VFloat (num_of_Z 1%Z); VFloat (num_of_Z 1%Z); VFloat (num_of_Z 3%Z)])) None; z ← make (Nda DFloat (Arr [3; 2] [VFloat (num_of_Z 1%Z); VFloat (NaN); VFloat (num_of_Z 1%Z); VFloat (num_of_Z 1%Z); VFloat (num_of_Z 1%Z); VFloat (num_of_Z 3%Z)])) None; larry_compare CGt y (OpLarry z))) [3; 2] [VBool false; VBool false; VBool false; VBool false; VBool false; VBool false]) &&
  (label_is (lar_of_out (y ← make (Nda DFloat (Arr [3; 2] [VFloat (num_of_Z 1%Z); VFloat (NaN); VFloat (num_of_Z 1%Z); VFloat (num_of_Z 1%Z); VFloat (num_of_Z 1%Z); VFloat (num_of_Z 3%Z)])) None; z ← make (Nda DFloat (Arr [3; 2] [VFloat (num_of_Z 1%Z); VFloat (NaN); VFloat (num_of_Z 1%Z); VFloat (num_of_Z 1%Z); VFloat (num_of_Z 1%Z); VFloat (num_of_Z 3%Z)])) None; larry_compare CGt y (OpLarry z))) [[LInt 0%Z; LInt 1%Z; LInt 2%Z]; [LInt 0%Z; LInt 1%Z]]) = true.
Proof. by vm_compute. Qed.
(** la/tests/deflarry_test.py:1299 *)
Example deflarry__Test_comparison__test_le_1 :
  (x_near (lar_of_out (y ← make (Nda DFloat (Arr [3; 2] [VFloat (num_of_Z 1%Z); VFloat (NaN); VFloat (num_of_Z 1%Z); VFloat (num_of_Z 1%Z); VFloat (num_of_Z 1%Z); VFloat (num_of_Z 3%Z)])) None; larry_compare CLe y (OpScalar (VFloat (num_of_Z 1%Z))))) [3; 2] [VBool true; VBool false; VBool true; VBool true; VBool true; VBool false]) &&
  (label_is (lar_of_out (y ← make (Nda DFloat (Arr [3; 2] [VFloat (num_of_Z 1%Z); VFloat (NaN); VFloat (num_of_Z 1%Z); VFloat (num_of_Z 1%Z); VFloat (num_of_Z 1%Z); VFloat (num_of_Z 3%Z)])) None; larry_compare CLe y (OpScalar (VFloat (num_of_Z 1%Z))))) [[LInt 0%Z; LInt 1%Z; LInt 2%Z]; [LInt 0%Z; LInt 1%Z]]) = true.
Proof. by vm_compute. Qed.
(** la/tests/deflarry_test.py:1310 *)
Example deflarry__Test_comparison__test_le_2 :
  (x_near (lar_of_out (y ← make (Nda DFloat (Arr [3; 2] [VFloat (num_of_Z 1%Z); VFloat (NaN); VFloat (num_of_Z 1%Z); VFloat (num_of_Z 1%Z); VFloat (num_of_Z 1%Z); VFloat (num_of_Z 3%Z)])) None; larry_compare CLe y (OpArr (Nda DFloat (Arr [3; 2] [VFloat (num_of_Z 0%Z); VFloat (num_of_Z 1%Z); VFloat (num_of_Z 1%Z); VFloat (num_of_Z 1%Z); VFloat (num_of_Z 1%Z); VFloat (num_of_Z 1%Z)]))))) [3; 2] [VBool false; VBool false; VBool true; VBool true; VBool true; VBool false]) &&
  (label_is (lar_of_out (y ← make (Nda DFloat (Arr [3; 2] [VFloat (num_of_Z 1%Z); VFloat (NaN); VFloat (num_of_Z 1%Z); VFloat (num_of_Z 1%Z); VFloat (num_of_Z 1%Z); VFloat (num_of_Z 3%Z)])) None; larry_compare CLe y (OpArr (Nda DFloat (Arr [3; 2] [VFloat (num_of_Z 0%Z); VFloat (num_of_Z 1%Z); VFloat (num_of_Z 1%Z); VFloat (num_of_Z 1%Z); VFloat (num_of_Z 1%Z); VFloat (num_of_Z 1%Z)]))))) [[LInt 0%Z; LInt 1%Z; LInt 2%Z]; [LInt 0%Z; LInt 1%Z]]) = true.
Proof. by vm_compute. Qed.
(** la/tests/deflarry_test.py:1321 *)
Example deflarry__Test_comparison__test_le_3 :
  (x_near (lar_of_out (y ← make (Nda DFloat (Arr [3; 2] [VFloat (num_of_Z 1%Z); VFloat (NaN); VFloat (num_of_Z 1%Z); VFloat (num_of_Z 1%Z); VFloat (num_of_Z 1%Z); VFloat (num_of_Z 3%Z)])) None; z ← make (Nda DFloat (Arr [3; 2] [VFloat (num_of_Z 1%Z); VFloat (NaN); VFloat (num_of_Z 1%Z); VFloat (num_of_Z 1%Z); VFloat (num_of_Z 1%Z); VFloat (num_of_Z 3%Z)])) None; larry_compare CLe y (OpLarry z))) [3; 2] [VBool true; VBool false; VBool true; VBool true; VBool true; VBool true]) &&
  (label_is (lar_of_out (y ← make (Nda DFloat (Arr [3; 2] [VFloat (num_of_Z 1%Z); VFloat (NaN); VFloat (num_of_Z 1%Z); VFloat (num_of_Z 1%Z); VFloat (num_of_Z 1%Z); VFloat (num_of_Z 3%Z)])) None; z ← make (Nda DFloat (Arr [3; 2] [VFloat (num_of_Z 1%Z); VFloat (NaN); VFloat (num_of_Z 1%Z); VFloat (num_of_Z 1%Z); VFloat (num_of_Z 1%Z); VFloat (num_of_Z 3%Z)])) None; larry_compare CLe y (OpLarry z))) [[LInt 0%Z; LInt 1%Z; LInt 2%Z]; [LInt 0%Z; LInt 1%Z]]) = true.
Proof. by vm_compute. Qed.
(** la/tests/deflarry_test.py:1337 *)
Example deflarry__Test_comparison__test_ge_1 :
  (x_near (lar_of_out (y ← make (Nda DFloat (Arr [3; 2] [VFloat (num_of_Z 1%Z); VFloat (NaN); VFloat (num_of_Z 1%Z); VFloat (num_of_Z 1%Z); VFloat (num_of_Z 1%Z); VFloat (num_of_Z 3%Z)])) None; larry_compare CGe y (OpScalar (VFloat (num_of_Z 1%Z))))) [3; 2] [VBool true; VBool false; VBool true; VBool true; VBool true; VBool true]) &&
  (label_is (lar_of_out (y ← make (Nda DFloat (Arr [3; 2] [VFloat (num_of_Z 1%Z); VFloat (NaN); VFloat (num_of_Z 1%Z); VFloat (num_of_Z 1%Z); VFloat (num_of_Z 1%Z); VFloat (num_of_Z 3%Z)])) None; larry_compare CGe y (OpScalar (VFloat (num_of_Z 1%Z))))) [[LInt 0%Z; LInt 1%Z; LInt 2%Z]; [LInt 0%Z; LInt 1%Z]]) = true.
Proof. by vm_compute. Qed.
(** la/tests/deflarry_test.py:1348 *)
Example deflarry__Test_comparison__test_ge_2 :
  (x_near (lar_of_out (y ← make (Nda DFloat (Arr [3; 2] [VFloat (num_of_Z 1%Z); VFloat (NaN); VFloat (num_of_Z 1%Z); VFloat (num_of_Z 1%Z); VFloat (num_of_Z 1%Z); VFloat (num_of_Z 3%Z)])) None; larry_compare CGe y (OpArr (Nda DFloat (Arr [3; 2] [VFloat (num_of_Z 0%Z); VFloat (num_of_Z 1%Z); VFloat (num_of_Z 1%Z); VFloat (num_of_Z 1%Z); VFloat (num_of_Z 1%Z); VFloat (num_of_Z 1%Z)]))))) [3; 2] [VBool true; VBool false; VBool true; VBool true; VBool true; VBool true]) &&
  (label_is (lar_of_out (y ← make (Nda DFloat (Arr [3; 2] [VFloat (num_of_Z 1%Z); VFloat (NaN); VFloat (num_of_Z 1%Z); VFloat (num_of_Z 1%Z); VFloat (num_of_Z 1%Z); VFloat (num_of_Z 3%Z)])) None; larry_compare CGe y (OpArr (Nda DFloat (Arr [3; 2] [VFloat (num_of_Z 0%Z); VFloat (num_of_Z 1%Z); VFloat (num_of_Z 1%Z); VFloat (num_of_Z 1%Z); VFloat (num_of_Z 1%Z); VFloat (num_of_Z 1%Z)]))))) [[LInt 0%Z; LInt 1%Z; LInt 2%Z]; [LInt 0%Z; LInt 1%Z]]) = true.
Proof. by vm_compute. Qed.
(** la/tests/deflarry_test.py:1359 *)
Example deflarry__Test_comparison__test_ge_3 :
  (x_near (lar_of_out (y ← make (Nda DFloat (Arr [3; 2] [VFloat (num_of_Z 1%Z); VFloat (NaN); VFloat (num_of_Z 1%Z); VFloat (num_of_Z 1%Z); VFloat (num_of_Z 1%Z); VFloat (num_of_Z 3%Z)])) None; z ← make (Nda DFloat (Arr [3; 2] [VFloat (num_of_Z 1%Z); VFloat (NaN); VFloat (num_of_Z 1%Z); VFloat (num_of_Z 1%Z); VFloat (num_of_Z 1%Z); VFloat (num_of_Z 3%Z)])) None; larry_compare CGe y (OpLarry z))) [3; 2] [VBool true; VBool false; VBool true; VBool true; VBool true; VBool true]) &&
  (label_is (lar_of_out (y ← make (Nda DFloat (Arr [3; 2] [VFloat (num_of_Z 1%Z); VFloat (NaN); VFloat (num_of_Z 1%Z); VFloat (num_of_Z 1%Z); VFloat (num_of_Z 1%Z); VFloat (num_of_Z 3%Z)])) None; z ← make (Nda DFloat (Arr [3; 2] [VFloat (num_of_Z 1%Z); VFloat (NaN); VFloat (num_of_Z 1%Z); VFloat (num_of_Z 1%Z); VFloat (num_of_Z 1%Z); VFloat (num_of_Z 3%Z)])) None; larry_compare CGe y (OpLarry z))) [[LInt 0%Z; LInt 1%Z; LInt 2%Z]; [LInt 0%Z; LInt 1%Z]]) = true.
Proof. by vm_compute. Qed.
(** la/tests/deflarry_test.py:1471 *)
Example deflarry__Test_getset__test_setitem_1 :
  (x_near (y ← make (Nda DFloat (Arr [3; 2] [VFloat (num_of_Z 1%Z); VFloat (NaN); VFloat (num_of_Z 3%Z); VFloat (num_of_Z 4%Z); VFloat (num_of_Z 5%Z); VFloat (num_of_Z 6%Z)])) None; larry_setitem y (XTuple [IInt (-1)%Z; IInt (-1)%Z]) (SVal (VInt (-1)%Z))) [3; 2] [VFloat (num_of_Z 1%Z); VFloat (NaN); VFloat (num_of_Z 3%Z); VFloat (num_of_Z 4%Z); VFloat (num_of_Z 5%Z); VFloat (num_of_Z (-1)%Z)]) &&
  (label_is (y ← make (Nda DFloat (Arr [3; 2] [VFloat (num_of_Z 1%Z); VFloat (NaN); VFloat (num_of_Z 3%Z); VFloat (num_of_Z 4%Z); VFloat (num_of_Z 5%Z); VFloat (num_of_Z 6%Z)])) None; larry_setitem y (XTuple [IInt (-1)%Z; IInt (-1)%Z]) (SVal (VInt (-1)%Z))) [[LInt 0%Z; LInt 1%Z; LInt 2%Z]; [LInt 0%Z; LInt 1%Z]]) = true.
Proof. by vm_compute. Qed.
(** la/tests/deflarry_test.py:1485 *)
Example deflarry__Test_getset__test_setitem_2 :
  (x_near (y ← make (Nda DFloat (Arr [3; 2] [VFloat (num_of_Z 1%Z); VFloat (NaN); VFloat (num_of_Z 3%Z); VFloat (num_of_Z 4%Z); VFloat (num_of_Z 5%Z); VFloat (num_of_Z 6%Z)])) None; larry_setitem y (XTuple [ISlice (Slice None None None); IInt (-1)%Z]) (SVal (VInt (-1)%Z))) [3; 2] [VFloat (num_of_Z 1%Z); VFloat (num_of_Z (-1)%Z); VFloat (num_of_Z 3%Z); VFloat (num_of_Z (-1)%Z); VFloat (num_of_Z 5%Z); VFloat (num_of_Z (-1)%Z)]) &&
  (label_is (y ← make (Nda DFloat (Arr [3; 2] [VFloat (num_of_Z 1%Z); VFloat (NaN); VFloat (num_of_Z 3%Z); VFloat (num_of_Z 4%Z); VFloat (num_of_Z 5%Z); VFloat (num_of_Z 6%Z)])) None; larry_setitem y (XTuple [ISlice (Slice None None None); IInt (-1)%Z]) (SVal (VInt (-1)%Z))) [[LInt 0%Z; LInt 1%Z; LInt 2%Z]; [LInt 0%Z; LInt 1%Z]]) = true.
Proof. by vm_compute. Qed.
(** la/tests/deflarry_test.py:1515 *)
Example deflarry__Test_getset__test_setitem_4 :
  (x_near (y ← make (Nda DFloat (Arr [3; 2] [VFloat (num_of_Z 1%Z); VFloat (NaN); VFloat (num_of_Z 3%Z); VFloat (num_of_Z 4%Z); VFloat (num_of_Z 5%Z); VFloat (num_of_Z 6%Z)])) None; m ← lar_of_out (y ← make (Nda DFloat (Arr [3; 2] [VFloat (num_of_Z 1%Z); VFloat (NaN); VFloat (num_of_Z 3%Z); VFloat (num_of_Z 4%Z); VFloat (num_of_Z 5%Z); VFloat (num_of_Z 6%Z)])) None; z ← make (Nda DFloat (Arr [3; 2] [VFloat (num_of_Z 1%Z); VFloat (NaN); VFloat (num_of_Z 3%Z); VFloat (num_of_Z 4%Z); VFloat (num_of_Z 5%Z); VFloat (num_of_Z 6%Z)])) None; larry_compare CEq y (OpLarry z)); larry_setmask y m (VInt (-1)%Z)) [3; 2] [VFloat (num_of_Z (-1)%Z); VFloat (NaN); VFloat (num_of_Z (-1)%Z); VFloat (num_of_Z (-1)%Z); VFloat (num_of_Z (-1)%Z); VFloat (num_of_Z (-1)%Z)]) &&
  (label_is (y ← make (Nda DFloat (Arr [3; 2] [VFloat (num_of_Z 1%Z); VFloat (NaN); VFloat (num_of_Z 3%Z); VFloat (num_of_Z 4%Z); VFloat (num_of_Z 5%Z); VFloat (num_of_Z 6%Z)])) None; m ← lar_of_out (y ← make (Nda DFloat (Arr [3; 2] [VFloat (num_of_Z 1%Z); VFloat (NaN); VFloat (num_of_Z 3%Z); VFloat (num_of_Z 4%Z); VFloat (num_of_Z 5%Z); VFloat (num_of_Z 6%Z)])) None; z ← make (Nda DFloat (Arr [3; 2] [VFloat (num_of_Z 1%Z); VFloat (NaN); VFloat (num_of_Z 3%Z); VFloat (num_of_Z 4%Z); VFloat (num_of_Z 5%Z); VFloat (num_of_Z 6%Z)])) None; larry_compare CEq y (OpLarry z)); larry_setmask y m (VInt (-1)%Z)) [[LInt 0%Z; LInt 1%Z; LInt 2%Z]; [LInt 0%Z; LInt 1%Z]]) = true.
Proof. by vm_compute. Qed.
(** la/tests/deflarry_test.py:1529 *)
Example deflarry__Test_getset__test_setitem_5 :
  (x_near (y ← make (Nda DInt (Arr [4] [VInt 0%Z; VInt 1%Z; VInt 2%Z; VInt 3%Z])) None; larry_setitem y (XInt (-1)%Z) (SVal (VInt 9%Z))) [4] [VInt 0%Z; VInt 1%Z; VInt 2%Z; VInt 9%Z]) &&
  (label_is (y ← make (Nda DInt (Arr [4] [VInt 0%Z; VInt 1%Z; VInt 2%Z; VInt 3%Z])) None; larry_setitem y (XInt (-1)%Z) (SVal (VInt 9%Z))) [[LInt 0%Z; LInt 1%Z; LInt 2%Z; LInt 3%Z]]) = true.
Proof. by vm_compute. Qed.
(** la/tests/deflarry_test.py:1539 *)
Example deflarry__Test_getset__test_setitem_6 :
  (x_near (y ← make (Nda DInt (Arr [4] [VInt 0%Z; VInt 1%Z; VInt 2%Z; VInt 3%Z])) None; larry_setarray y (XSlice (Slice None None None)) (Nda DInt (Arr [4] [VInt 0%Z; VInt 1%Z; VInt 2%Z; VInt 3%Z]))) [4] [VInt 0%Z; VInt 1%Z; VInt 2%Z; VInt 3%Z]) &&
  (label_is (y ← make (Nda DInt (Arr [4] [VInt 0%Z; VInt 1%Z; VInt 2%Z; VInt 3%Z])) None; larry_setarray y (XSlice (Slice None None None)) (Nda DInt (Arr [4] [VInt 0%Z; VInt 1%Z; VInt 2%Z; VInt 3%Z]))) [[LInt 0%Z; LInt 1%Z; LInt 2%Z; LInt 3%Z]]) = true.
Proof. by vm_compute. Qed.
(** la/tests/deflarry_test.py:1549 *)
Example deflarry__Test_getset__test_setitem_7 :
  (x_near (y ← make (Nda DInt (Arr [4] [VInt 0%Z; VInt 1%Z; VInt 2%Z; VInt 3%Z])) None; larry_setarray y (XSlice (Slice (Some 1%Z) None None)) (Nda DInt (Arr [3] [VInt 9%Z; VInt 8%Z; VInt 7%Z]))) [4] [VInt 0%Z; VInt 9%Z; VInt 8%Z; VInt 7%Z]) &&
  (label_is (y ← make (Nda DInt (Arr [4] [VInt 0%Z; VInt 1%Z; VInt 2%Z; VInt 3%Z])) None; larry_setarray y (XSlice (Slice (Some 1%Z) None None)) (Nda DInt (Arr [3] [VInt 9%Z; VInt 8%Z; VInt 7%Z]))) [[LInt 0%Z; LInt 1%Z; LInt 2%Z; LInt 3%Z]]) = true.
Proof. by vm_compute. Qed.
(** la/tests/deflarry_test.py:1559 *)
Example deflarry__Test_getset__test_setitem_8 :
  (x_near (y ← make (Nda DInt (Arr [4] [VInt 0%Z; VInt 1%Z; VInt 2%Z; VInt 3%Z])) None; z ← make (Nda DInt (Arr [3] [VInt 9%Z; VInt 8%Z; VInt 7%Z])) None; larry_setitem y (XSlice (Slice None (Some (-1)%Z) None)) (SLarry z)) [4] [VInt 9%Z; VInt 8%Z; VInt 7%Z; VInt 3%Z]) &&
  (label_is (y ← make (Nda DInt (Arr [4] [VInt 0%Z; VInt 1%Z; VInt 2%Z; VInt 3%Z])) None; z ← make (Nda DInt (Arr [3] [VInt 9%Z; VInt 8%Z; VInt 7%Z])) None; larry_setitem y (XSlice (Slice None (Some (-1)%Z) None)) (SLarry z)) [[LInt 0%Z; LInt 1%Z; LInt 2%Z; LInt 3%Z]]) = true.
Proof. by vm_compute. Qed.
(** la/tests/deflarry_test.py:1569 *)
Example deflarry__Test_getset__test_setitem_9 :
  (x_near (y ← make (Nda DFloat (Arr [3; 2] [VFloat (num_of_Z 1%Z); VFloat (NaN); VFloat (num_of_Z 3%Z); VFloat (num_of_Z 4%Z); VFloat (num_of_Z 5%Z); VFloat (num_of_Z 6%Z)])) None; z ← make (Nda DFloat (Arr [2; 2] [VFloat (num_of_Z 9%Z); VFloat (num_of_Z 8%Z); VFloat (num_of_Z 7%Z); VFloat (num_of_Z 6%Z)])) None; larry_setitem y (XTuple [ISlice (Slice None (Some 2%Z) None); ISlice (Slice None (Some 2%Z) None)]) (SLarry z)) [3; 2] [VFloat (num_of_Z 9%Z); VFloat (num_of_Z 8%Z); VFloat (num_of_Z 7%Z); VFloat (num_of_Z 6%Z); VFloat (num_of_Z 5%Z); VFloat (num_of_Z 6%Z)]) &&
  (label_is (y ← make (Nda DFloat (Arr [3; 2] [VFloat (num_of_Z 1%Z); VFloat (NaN); VFloat (num_of_Z 3%Z); VFloat (num_of_Z 4%Z); VFloat (num_of_Z 5%Z); VFloat (num_of_Z 6%Z)])) None; z ← make (Nda DFloat (Arr [2; 2] [VFloat (num_of_Z 9%Z); VFloat (num_of_Z 8%Z); VFloat (num_of_Z 7%Z); VFloat (num_of_Z 6%Z)])) None; larry_setitem y (XTuple [ISlice (Slice None (Some 2%Z) None); ISlice (Slice None (Some 2%Z) None)]) (SLarry z)) [[LInt 0%Z; LInt 1%Z; LInt 2%Z]; [LInt 0%Z; LInt 1%Z]]) = true.
Proof. by vm_compute. Qed.
(** la/tests/deflarry_test.py:1583 *)
Example deflarry__Test_getset__test_set_1 :
  (x_near (y ← make (Nda DFloat (Arr [3; 2] [VFloat (num_of_Z 1%Z); VFloat (NaN); VFloat (num_of_Z 3%Z); VFloat (num_of_Z 4%Z); VFloat (num_of_Z 5%Z); VFloat (num_of_Z 6%Z)])) None; larry_set y [LInt 2%Z; LInt 1%Z] (VInt (-1)%Z)) [3; 2] [VFloat (num_of_Z 1%Z); VFloat (NaN); VFloat (num_of_Z 3%Z); VFloat (num_of_Z 4%Z); VFloat (num_of_Z 5%Z); VFloat (num_of_Z (-1)%Z)]) &&
  (label_is (y ← make (Nda DFloat (Arr [3; 2] [VFloat (num_of_Z 1%Z); VFloat (NaN); VFloat (num_of_Z 3%Z); VFloat (num_of_Z 4%Z); VFloat (num_of_Z 5%Z); VFloat (num_of_Z 6%Z)])) None; larry_set y [LInt 2%Z; LInt 1%Z] (VInt (-1)%Z)) [[LInt 0%Z; LInt 1%Z; LInt 2%Z]; [LInt 0%Z; LInt 1%Z]]) = true.
Proof. by vm_compute. Qed.
(** la/tests/deflarry_test.py:1597 *)
Example deflarry__Test_getset__test_get_1 :
  (v_near (y ← make (Nda DFloat (Arr [3; 2] [VFloat (num_of_Z 1%Z); VFloat (NaN); VFloat (num_of_Z 3%Z); VFloat (num_of_Z 4%Z); VFloat (num_of_Z 5%Z); VFloat (num_of_Z 6%Z)])) None; larry_get y [LInt 1%Z; LInt 0%Z]) (VFloat (num_of_Z 3%Z))) = true.
Proof. by vm_compute. Qed.
(** la/tests/deflarry_test.py:1604 *)
Example deflarry__Test_getset__test_getx_1 :
  (x_near (make (Nda DFloat (Arr [3; 2] [VFloat (num_of_Z 1%Z); VFloat (NaN); VFloat (num_of_Z 3%Z); VFloat (num_of_Z 4%Z); VFloat (num_of_Z 5%Z); VFloat (num_of_Z 6%Z)])) None) [3; 2] [VFloat (num_of_Z 1%Z); VFloat (NaN); VFloat (num_of_Z 3%Z); VFloat (num_of_Z 4%Z); VFloat (num_of_Z 5%Z); VFloat (num_of_Z 6%Z)]) = true.
Proof. by vm_compute. Qed.
(** la/tests/deflarry_test.py:1616 *)
Example deflarry__Test_getset__test_getx_2 :
  (x_near (make (Nda DFloat (Arr [3; 2] [VFloat (num_of_Z 1%Z); VFloat (NaN); VFloat (num_of_Z 3%Z); VFloat (num_of_Z 4%Z); VFloat (num_of_Z 5%Z); VFloat (num_of_Z 6%Z)])) None) [3; 2] [VFloat (num_of_Z 1%Z); VFloat (NaN); VFloat (num_of_Z 3%Z); VFloat (num_of_Z 4%Z); VFloat (num_of_Z 5%Z); VFloat (num_of_Z 6%Z)]) = true.
Proof. by vm_compute. Qed.
(** la/tests/deflarry_test.py:1628 *)
Example deflarry__Test_getset__test_getx_3 :
  (x_near (make (Nda DInt (Arr [4] [VInt 0%Z; VInt 1%Z; VInt 2%Z; VInt 3%Z])) None) [4] [VInt 0%Z; VInt 1%Z; VInt 2%Z; VInt 3%Z]) = true.
Proof. by vm_compute. Qed.
(** la/tests/deflarry_test.py:1636 *)
Example deflarry__Test_getset__test_fill_1 :
  (x_near (y ← make (Nda DFloat (Arr [3; 2] [VFloat (num_of_Z 1%Z); VFloat (NaN); VFloat (num_of_Z 3%Z); VFloat (num_of_Z 4%Z); VFloat (num_of_Z 5%Z); VFloat (num_of_Z 6%Z)])) None; larry_fill y (VInt (-1)%Z)) [3; 2] [VFloat (num_of_Z (-1)%Z); VFloat (num_of_Z (-1)%Z); VFloat (num_of_Z (-1)%Z); VFloat (num_of_Z (-1)%Z); VFloat (num_of_Z (-1)%Z); VFloat (num_of_Z (-1)%Z)]) &&
  (label_is (y ← make (Nda DFloat (Arr [3; 2] [VFloat (num_of_Z 1%Z); VFloat (NaN); VFloat (num_of_Z 3%Z); VFloat (num_of_Z 4%Z); VFloat (num_of_Z 5%Z); VFloat (num_of_Z 6%Z)])) None; larry_fill y (VInt (-1)%Z)) [[LInt 0%Z; LInt 1%Z; LInt 2%Z]; [LInt 0%Z; LInt 1%Z]]) = true.
Proof. by vm_compute. Qed.
(** la/tests/deflarry_test.py:1650 *)
Example deflarry__Test_getset__test_pull_1 :
  (larry_same (lar_of_out (y ← make (Nda DInt (Arr [2; 2] [VInt 1%Z; VInt 2%Z; VInt 3%Z; VInt 4%Z])) (Some [[LStr "r0"%string; LStr "r1"%string]; [LStr "c0"%string; LStr "c1"%string]]); pull y (LStr "r0"%string) (Some 0%Z))) (make (Nda DInt (Arr [2] [VInt 1%Z; VInt 2%Z])) (Some [[LStr "c0"%string; LStr "c1"%string]]))) = true.
Proof. by vm_compute. Qed.
(** la/tests/deflarry_test.py:1657 *)
Example deflarry__Test_getset__test_pull_2 :
  (larry_same (lar_of_out (y ← make (Nda DInt (Arr [2; 2; 2] [VInt 1%Z; VInt 2%Z; VInt 3%Z; VInt 4%Z; VInt 5%Z; VInt 6%Z; VInt 7%Z; VInt 8%Z])) (Some [[LStr "experiment1"%string; LStr "experient2"%string]; [LStr "r0"%string; LStr "r1"%string]; [LStr "c0"%string; LStr "c1"%string]]); pull y (LStr "experiment1"%string) (Some 0%Z))) (make (Nda DInt (Arr [2; 2] [VInt 1%Z; VInt 2%Z; VInt 3%Z; VInt 4%Z])) (Some [[LStr "r0"%string; LStr "r1"%string]; [LStr "c0"%string; LStr "c1"%string]]))) = true.
Proof. by vm_compute. Qed.
(** la/tests/deflarry_test.py:1706 *)
Example deflarry__Test_label__test_maxlabel_5 :
  (raises (y ← make (Nda DInt (Arr [4] [VInt 0%Z; VInt 1%Z; VInt 2%Z; VInt 3%Z])) None; maxlabel y (Some 1%Z)) IndexError) = true.
Proof. by vm_compute. Qed.
(** la/tests/deflarry_test.py:1734 *)
Example deflarry__Test_label__test_minlabel_5 :
  (raises (y ← make (Nda DInt (Arr [4] [VInt 0%Z; VInt 1%Z; VInt 2%Z; VInt 3%Z])) None; minlabel y (Some 1%Z)) IndexError) = true.
Proof. by vm_compute. Qed.
(** la/tests/deflarry_test.py:1792 *)
Example deflarry__Test_label__test_labelindex_3 :
  (raises (y ← make (Nda DFloat (Arr [3; 2] [VFloat (num_of_Z 1%Z); VFloat (NaN); VFloat (num_of_Z 3%Z); VFloat (num_of_Z 4%Z); VFloat (num_of_Z 5%Z); VFloat (num_of_Z 6%Z)])) None; labelindex y (LInt 3%Z) None true) ValueError) = true.
Proof. by vm_compute. Qed.
(** la/tests/deflarry_test.py:1848 *)
Example deflarry__Test_calc__test_demean_1 :
  (x_near (y ← make (Nda DFloat (Arr [3; 4] [VFloat (num_of_Z 2%Z); VFloat (num_of_Z 2%Z); VFloat (NaN); VFloat (num_of_Z 1%Z); VFloat (NaN); VFloat (NaN); VFloat (NaN); VFloat (num_of_Z 1%Z); VFloat (num_of_Z 1%Z); VFloat (num_of_Z 1%Z); VFloat (NaN); VFloat (num_of_Z 1%Z)])) None; larry_demean y (Some 0%Z)) [3; 4] [VFloat (ra 1%Z 2); VFloat (ra 1%Z 2); VFloat (NaN); VFloat (num_of_Z 0%Z); VFloat (NaN); VFloat (NaN); VFloat (NaN); VFloat (num_of_Z 0%Z); VFloat (ra (-1)%Z 2); VFloat (ra (-1)%Z 2); VFloat (NaN); VFloat (num_of_Z 0%Z)]) &&
  (label_is (y ← make (Nda DFloat (Arr [3; 4] [VFloat (num_of_Z 2%Z); VFloat (num_of_Z 2%Z); VFloat (NaN); VFloat (num_of_Z 1%Z); VFloat (NaN); VFloat (NaN); VFloat (NaN); VFloat (num_of_Z 1%Z); VFloat (num_of_Z 1%Z); VFloat (num_of_Z 1%Z); VFloat (NaN); VFloat (num_of_Z 1%Z)])) None; larry_demean y (Some 0%Z)) [[LInt 0%Z; LInt 1%Z; LInt 2%Z]; [LInt 0%Z; LInt 1%Z; LInt 2%Z; LInt 3%Z]]) = true.
Proof. by vm_compute. Qed.
(** la/tests/deflarry_test.py:1863 *)
Example deflarry__Test_calc__test_demean_2 :
  (label_is (y ← make (Nda DFloat (Arr [3; 4] [VFloat (num_of_Z 2%Z); VFloat (num_of_Z 2%Z); VFloat (NaN); VFloat (num_of_Z 1%Z); VFloat (NaN); VFloat (NaN); VFloat (NaN); VFloat (num_of_Z 1%Z); VFloat (num_of_Z 1%Z); VFloat (num_of_Z 1%Z); VFloat (NaN); VFloat (num_of_Z 1%Z)])) None; larry_demean y (Some 1%Z)) [[LInt 0%Z; LInt 1%Z; LInt 2%Z]; [LInt 0%Z; LInt 1%Z; LInt 2%Z; LInt 3%Z]]) = true.
Proof. by vm_compute. Qed.
(** la/tests/deflarry_test.py:1877 *)
Example deflarry__Test_calc__test_demean_3 :
  (x_near (y ← make (Nda DInt (Arr [5] [VInt 1%Z; VInt 2%Z; VInt 3%Z; VInt 4%Z; VInt 5%Z])) None; larry_demean y (Some 0%Z)) [5] [VInt (-2)%Z; VInt (-1)%Z; VInt 0%Z; VInt 1%Z; VInt 2%Z]) &&
  (label_is (y ← make (Nda DInt (Arr [5] [VInt 1%Z; VInt 2%Z; VInt 3%Z; VInt 4%Z; VInt 5%Z])) None; larry_demean y (Some 0%Z)) [[LInt 0%Z; LInt 1%Z; LInt 2%Z; LInt 3%Z; LInt 4%Z]]) = true.
Proof. by vm_compute. Qed.
(** la/tests/deflarry_test.py:1887 *)
Example deflarry__Test_calc__test_demean_4 :
  (x_near (y ← make (Nda DInt (Arr [2] [VInt 1%Z; VInt 2%Z])) None; larry_demean y (Some 0%Z)) [2] [VFloat (ra (-1)%Z 2); VFloat (ra 1%Z 2)]) &&
  (label_is (y ← make (Nda DInt (Arr [2] [VInt 1%Z; VInt 2%Z])) None; larry_demean y (Some 0%Z)) [[LInt 0%Z; LInt 1%Z]]) = true.
Proof. by vm_compute. Qed.
(** la/tests/deflarry_test.py:1896 *)
Example deflarry__Test_calc__test_demean_5 :
  (larry_same (y ← make (Nda DInt (Arr [3] [VInt 1%Z; VInt 2%Z; VInt 3%Z])) None; larry_demean y (Some (-1)%Z)) (y ← make (Nda DInt (Arr [3] [VInt 1%Z; VInt 2%Z; VInt 3%Z])) None; larry_demean y None)) = true.
Proof. by vm_compute. Qed.
(** la/tests/deflarry_test.py:1903 *)
Example deflarry__Test_calc__test_demedian_1 :
  (x_near (y ← make (Nda DFloat (Arr [3; 4] [VFloat (num_of_Z 2%Z); VFloat (num_of_Z 2%Z); VFloat (NaN); VFloat (num_of_Z 1%Z); VFloat (NaN); VFloat (NaN); VFloat (NaN); VFloat (num_of_Z 1%Z); VFloat (num_of_Z 1%Z); VFloat (num_of_Z 1%Z); VFloat (NaN); VFloat (num_of_Z 1%Z)])) None; larry_demedian y (Some 0%Z)) [3; 4] [VFloat (ra 1%Z 2); VFloat (ra 1%Z 2); VFloat (NaN); VFloat (num_of_Z 0%Z); VFloat (NaN); VFloat (NaN); VFloat (NaN); VFloat (num_of_Z 0%Z); VFloat (ra (-1)%Z 2); VFloat (ra (-1)%Z 2); VFloat (NaN); VFloat (num_of_Z 0%Z)]) &&
  (label_is (y ← make (Nda DFloat (Arr [3; 4] [VFloat (num_of_Z 2%Z); VFloat (num_of_Z 2%Z); VFloat (NaN); VFloat (num_of_Z 1%Z); VFloat (NaN); VFloat (NaN); VFloat (NaN); VFloat (num_of_Z 1%Z); VFloat (num_of_Z 1%Z); VFloat (num_of_Z 1%Z); VFloat (NaN); VFloat (num_of_Z 1%Z)])) None; larry_demedian y (Some 0%Z)) [[LInt 0%Z; LInt 1%Z; LInt 2%Z]; [LInt 0%Z; LInt 1%Z; LInt 2%Z; LInt 3%Z]]) = true.
Proof. by vm_compute. Qed.
(** la/tests/deflarry_test.py:1917 *)
Example deflarry__Test_calc__test_demedian_2 :
  (x_near (y ← make (Nda DFloat (Arr [3; 4] [VFloat (num_of_Z 2%Z); VFloat (num_of_Z 2%Z); VFloat (NaN); VFloat (num_of_Z 1%Z); VFloat (NaN); VFloat (NaN); VFloat (NaN); VFloat (num_of_Z 1%Z); VFloat (num_of_Z 1%Z); VFloat (num_of_Z 1%Z); VFloat (NaN); VFloat (num_of_Z 1%Z)])) None; larry_demedian y (Some 1%Z)) [3; 4] [VFloat (num_of_Z 0%Z); VFloat (num_of_Z 0%Z); VFloat (NaN); VFloat (num_of_Z (-1)%Z); VFloat (NaN); VFloat (NaN); VFloat (NaN); VFloat (num_of_Z 0%Z); VFloat (num_of_Z 0%Z); VFloat (num_of_Z 0%Z); VFloat (NaN); VFloat (num_of_Z 0%Z)]) &&
  (label_is (y ← make (Nda DFloat (Arr [3; 4] [VFloat (num_of_Z 2%Z); VFloat (num_of_Z 2%Z); VFloat (NaN); VFloat (num_of_Z 1%Z); VFloat (NaN); VFloat (NaN); VFloat (NaN); VFloat (num_of_Z 1%Z); VFloat (num_of_Z 1%Z); VFloat (num_of_Z 1%Z); VFloat (NaN); VFloat (num_of_Z 1%Z)])) None; larry_demedian y (Some 1%Z)) [[LInt 0%Z; LInt 1%Z; LInt 2%Z]; [LInt 0%Z; LInt 1%Z; LInt 2%Z; LInt 3%Z]]) = true.
Proof. by vm_compute. Qed.
(** la/tests/deflarry_test.py:1931 *)
Example deflarry__Test_calc__test_demedian_3 :
  (x_near (y ← make (Nda DInt (Arr [5] [VInt 1%Z; VInt 2%Z; VInt 3%Z; VInt 4%Z; VInt 5%Z])) None; larry_demedian y (Some 0%Z)) [5] [VInt (-2)%Z; VInt (-1)%Z; VInt 0%Z; VInt 1%Z; VInt 2%Z]) &&
  (label_is (y ← make (Nda DInt (Arr [5] [VInt 1%Z; VInt 2%Z; VInt 3%Z; VInt 4%Z; VInt 5%Z])) None; larry_demedian y (Some 0%Z)) [[LInt 0%Z; LInt 1%Z; LInt 2%Z; LInt 3%Z; LInt 4%Z]]) = true.
Proof. by vm_compute. Qed.
(** la/tests/deflarry_test.py:1941 *)
Example deflarry__Test_calc__test_demedian_4 :
  (x_near (y ← make (Nda DInt (Arr [2] [VInt 1%Z; VInt 2%Z])) None; larry_demedian y (Some 0%Z)) [2] [VFloat (ra (-1)%Z 2); VFloat (ra 1%Z 2)]) &&
  (label_is (y ← make (Nda DInt (Arr [2] [VInt 1%Z; VInt 2%Z])) None; larry_demedian y (Some 0%Z)) [[LInt 0%Z; LInt 1%Z]]) = true.
Proof. by vm_compute. Qed.
(** la/tests/deflarry_test.py:1950 *)
Example deflarry__Test_calc__test_demedian_5 :
  (larry_same (y ← make (Nda DInt (Arr [3] [VInt 1%Z; VInt 2%Z; VInt 3%Z])) None; larry_demedian y (Some (-1)%Z)) (y ← make (Nda DInt (Arr [3] [VInt 1%Z; VInt 2%Z; VInt 3%Z])) None; larry_demedian y None)) = true.
Proof. by vm_compute. Qed.
(** la/tests/deflarry_test.py:1957 *)
Example deflarry__Test_calc__test_zscore_1 :
  (label_is (y ← make (Nda DFloat (Arr [3; 4] [VFloat (num_of_Z 2%Z); VFloat (num_of_Z 2%Z); VFloat (num_of_Z 3%Z); VFloat (num_of_Z 1%Z); VFloat (num_of_Z 3%Z); VFloat (num_of_Z 2%Z); VFloat (num_of_Z 2%Z); VFloat (num_of_Z 1%Z); VFloat (num_of_Z 1%Z); VFloat (num_of_Z 1%Z); VFloat (num_of_Z 1%Z); VFloat (num_of_Z 1%Z)])) None; larry_zscore approx_sqrt y (Some 0%Z)) [[LInt 0%Z; LInt 1%Z; LInt 2%Z]; [LInt 0%Z; LInt 1%Z; LInt 2%Z; LInt 3%Z]]) = true.
Proof. by vm_compute. Qed.
(** la/tests/deflarry_test.py:1973 *)
Example deflarry__Test_calc__test_zscore_2 :
  (label_is (y ← make (Nda DFloat (Arr [3; 4] [VFloat (num_of_Z 2%Z); VFloat (num_of_Z 2%Z); VFloat (num_of_Z 3%Z); VFloat (num_of_Z 1%Z); VFloat (num_of_Z 3%Z); VFloat (num_of_Z 2%Z); VFloat (num_of_Z 2%Z); VFloat (num_of_Z 1%Z); VFloat (num_of_Z 1%Z); VFloat (num_of_Z 1%Z); VFloat (num_of_Z 1%Z); VFloat (num_of_Z 1%Z)])) None; larry_zscore approx_sqrt y (Some 1%Z)) [[LInt 0%Z; LInt 1%Z; LInt 2%Z]; [LInt 0%Z; LInt 1%Z; LInt 2%Z; LInt 3%Z]]) = true.
Proof. by vm_compute. Qed.
(** la/tests/deflarry_test.py:1989 *)
Example deflarry__Test_calc__test_zscore_3 :
  (label_is (y ← make (Nda DInt (Arr [5] [VInt 1%Z; VInt 2%Z; VInt 3%Z; VInt 4%Z; VInt 5%Z])) None; larry_zscore approx_sqrt y None) [[LInt 0%Z; LInt 1%Z; LInt 2%Z; LInt 3%Z; LInt 4%Z]]) = true.
Proof. by vm_compute. Qed.
(** la/tests/deflarry_test.py:2003 *)
Example deflarry__Test_calc__test_zscore_4 :
  (larry_same (y ← make (Nda DInt (Arr [3] [VInt 1%Z; VInt 2%Z; VInt 3%Z])) None; larry_zscore approx_sqrt y (Some (-1)%Z)) (y ← make (Nda DInt (Arr [3] [VInt 1%Z; VInt 2%Z; VInt 3%Z])) None; larry_zscore approx_sqrt y None)) = true.
Proof. by vm_compute. Qed.
(** la/tests/deflarry_test.py:2010 *)
Example deflarry__Test_calc__test_push_1 :
  (x_near (y ← make (Nda DFloat (Arr [4; 5] [VFloat (NaN); VFloat (num_of_Z 1%Z); VFloat (num_of_Z 2%Z); VFloat (num_of_Z 3%Z); VFloat (num_of_Z 4%Z); VFloat (num_of_Z 1%Z); VFloat (NaN); VFloat (num_of_Z 2%Z); VFloat (NaN); VFloat (NaN); VFloat (num_of_Z 2%Z); VFloat (num_of_Z 2%Z); VFloat (NaN); VFloat (NaN); VFloat (NaN); VFloat (num_of_Z 3%Z); VFloat (num_of_Z 3%Z); VFloat (num_of_Z 3%Z); VFloat (num_of_Z 3%Z); VFloat (NaN)])) None; larry_push y 2%Z (-1)%Z) [4; 5] [VFloat (NaN); VFloat (num_of_Z 1%Z); VFloat (num_of_Z 2%Z); VFloat (num_of_Z 3%Z); VFloat (num_of_Z 4%Z); VFloat (num_of_Z 1%Z); VFloat (num_of_Z 1%Z); VFloat (num_of_Z 2%Z); VFloat (num_of_Z 2%Z); VFloat (num_of_Z 2%Z); VFloat (num_of_Z 2%Z); VFloat (num_of_Z 2%Z); VFloat (num_of_Z 2%Z); VFloat (num_of_Z 2%Z); VFloat (NaN); VFloat (num_of_Z 3%Z); VFloat (num_of_Z 3%Z); VFloat (num_of_Z 3%Z); VFloat (num_of_Z 3%Z); VFloat (num_of_Z 3%Z)]) &&
  (label_is (y ← make (Nda DFloat (Arr [4; 5] [VFloat (NaN); VFloat (num_of_Z 1%Z); VFloat (num_of_Z 2%Z); VFloat (num_of_Z 3%Z); VFloat (num_of_Z 4%Z); VFloat (num_of_Z 1%Z); VFloat (NaN); VFloat (num_of_Z 2%Z); VFloat (NaN); VFloat (NaN); VFloat (num_of_Z 2%Z); VFloat (num_of_Z 2%Z); VFloat (NaN); VFloat (NaN); VFloat (NaN); VFloat (num_of_Z 3%Z); VFloat (num_of_Z 3%Z); VFloat (num_of_Z 3%Z); VFloat (num_of_Z 3%Z); VFloat (NaN)])) None; larry_push y 2%Z (-1)%Z) [[LInt 0%Z; LInt 1%Z; LInt 2%Z; LInt 3%Z]; [LInt 0%Z; LInt 1%Z; LInt 2%Z; LInt 3%Z; LInt 4%Z]]) = true.
Proof. by vm_compute. Qed.
(** la/tests/deflarry_test.py:2025 *)
Example deflarry__Test_calc__test_push_2 :
  (x_near (y ← make (Nda DFloat (Arr [4; 5] [VFloat (NaN); VFloat (num_of_Z 1%Z); VFloat (num_of_Z 2%Z); VFloat (num_of_Z 3%Z); VFloat (num_of_Z 4%Z); VFloat (num_of_Z 1%Z); VFloat (NaN); VFloat (num_of_Z 2%Z); VFloat (NaN); VFloat (NaN); VFloat (num_of_Z 2%Z); VFloat (num_of_Z 2%Z); VFloat (NaN); VFloat (NaN); VFloat (NaN); VFloat (num_of_Z 3%Z); VFloat (num_of_Z 3%Z); VFloat (num_of_Z 3%Z); VFloat (num_of_Z 3%Z); VFloat (NaN)])) None; larry_push y 0%Z (-1)%Z) [4; 5] [VFloat (NaN); VFloat (num_of_Z 1%Z); VFloat (num_of_Z 2%Z); VFloat (num_of_Z 3%Z); VFloat (num_of_Z 4%Z); VFloat (num_of_Z 1%Z); VFloat (NaN); VFloat (num_of_Z 2%Z); VFloat (NaN); VFloat (NaN); VFloat (num_of_Z 2%Z); VFloat (num_of_Z 2%Z); VFloat (NaN); VFloat (NaN); VFloat (NaN); VFloat (num_of_Z 3%Z); VFloat (num_of_Z 3%Z); VFloat (num_of_Z 3%Z); VFloat (num_of_Z 3%Z); VFloat (NaN)]) &&
  (label_is (y ← make (Nda DFloat (Arr [4; 5] [VFloat (NaN); VFloat (num_of_Z 1%Z); VFloat (num_of_Z 2%Z); VFloat (num_of_Z 3%Z); VFloat (num_of_Z 4%Z); VFloat (num_of_Z 1%Z); VFloat (NaN); VFloat (num_of_Z 2%Z); VFloat (NaN); VFloat (NaN); VFloat (num_of_Z 2%Z); VFloat (num_of_Z 2%Z); VFloat (NaN); VFloat (NaN); VFloat (NaN); VFloat (num_of_Z 3%Z); VFloat (num_of_Z 3%Z); VFloat (num_of_Z 3%Z); VFloat (num_of_Z 3%Z); VFloat (NaN)])) None; larry_push y 0%Z (-1)%Z) [[LInt 0%Z; LInt 1%Z; LInt 2%Z; LInt 3%Z]; [LInt 0%Z; LInt 1%Z; LInt 2%Z; LInt 3%Z; LInt 4%Z]]) = true.
Proof. by vm_compute. Qed.
(** la/tests/deflarry_test.py:2040 *)
Example deflarry__Test_calc__test_push_3 :
  (x_near (y ← make (Nda DFloat (Arr [4; 5] [VFloat (NaN); VFloat (num_of_Z 1%Z); VFloat (num_of_Z 2%Z); VFloat (num_of_Z 3%Z); VFloat (num_of_Z 4%Z); VFloat (num_of_Z 1%Z); VFloat (NaN); VFloat (num_of_Z 2%Z); VFloat (NaN); VFloat (NaN); VFloat (num_of_Z 2%Z); VFloat (num_of_Z 2%Z); VFloat (NaN); VFloat (NaN); VFloat (NaN); VFloat (num_of_Z 3%Z); VFloat (num_of_Z 3%Z); VFloat (num_of_Z 3%Z); VFloat (num_of_Z 3%Z); VFloat (NaN)])) None; larry_push y 1%Z (-1)%Z) [4; 5] [VFloat (NaN); VFloat (num_of_Z 1%Z); VFloat (num_of_Z 2%Z); VFloat (num_of_Z 3%Z); VFloat (num_of_Z 4%Z); VFloat (num_of_Z 1%Z); VFloat (num_of_Z 1%Z); VFloat (num_of_Z 2%Z); VFloat (num_of_Z 2%Z); VFloat (NaN); VFloat (num_of_Z 2%Z); VFloat (num_of_Z 2%Z); VFloat (num_of_Z 2%Z); VFloat (NaN); VFloat (NaN); VFloat (num_of_Z 3%Z); VFloat (num_of_Z 3%Z); VFloat (num_of_Z 3%Z); VFloat (num_of_Z 3%Z); VFloat (num_of_Z 3%Z)]) &&
  (label_is (y ← make (Nda DFloat (Arr [4; 5] [VFloat (NaN); VFloat (num_of_Z 1%Z); VFloat (num_of_Z 2%Z); VFloat (num_of_Z 3%Z); VFloat (num_of_Z 4%Z); VFloat (num_of_Z 1%Z); VFloat (NaN); VFloat (num_of_Z 2%Z); VFloat (NaN); VFloat (NaN); VFloat (num_of_Z 2%Z); VFloat (num_of_Z 2%Z); VFloat (NaN); VFloat (NaN); VFloat (NaN); VFloat (num_of_Z 3%Z); VFloat (num_of_Z 3%Z); VFloat (num_of_Z 3%Z); VFloat (num_of_Z 3%Z); VFloat (NaN)])) None; larry_push y 1%Z (-1)%Z) [[LInt 0%Z; LInt 1%Z; LInt 2%Z; LInt 3%Z]; [LInt 0%Z; LInt 1%Z; LInt 2%Z; LInt 3%Z; LInt 4%Z]]) = true.
Proof. by vm_compute. Qed.
(** la/tests/deflarry_test.py:2056 *)
Example deflarry__Test_calc__test_move_sum_1 :
  (x_near (y ← make (Nda DFloat (Arr [3; 4] [VFloat (num_of_Z 2%Z); VFloat (num_of_Z 2%Z); VFloat (num_of_Z 3%Z); VFloat (num_of_Z 1%Z); VFloat (num_of_Z 3%Z); VFloat (num_of_Z 2%Z); VFloat (num_of_Z 2%Z); VFloat (num_of_Z 1%Z); VFloat (num_of_Z 1%Z); VFloat (num_of_Z 1%Z); VFloat (num_of_Z 1%Z); VFloat (num_of_Z 1%Z)])) None; larry_move MSum y 2%Z (Some (-1)%Z)) [3; 4] [VFloat (NaN); VFloat (num_of_Z 4%Z); VFloat (num_of_Z 5%Z); VFloat (num_of_Z 4%Z); VFloat (NaN); VFloat (num_of_Z 5%Z); VFloat (num_of_Z 4%Z); VFloat (num_of_Z 3%Z); VFloat (NaN); VFloat (num_of_Z 2%Z); VFloat (num_of_Z 2%Z); VFloat (num_of_Z 2%Z)]) &&
  (label_is (y ← make (Nda DFloat (Arr [3; 4] [VFloat (num_of_Z 2%Z); VFloat (num_of_Z 2%Z); VFloat (num_of_Z 3%Z); VFloat (num_of_Z 1%Z); VFloat (num_of_Z 3%Z); VFloat (num_of_Z 2%Z); VFloat (num_of_Z 2%Z); VFloat (num_of_Z 1%Z); VFloat (num_of_Z 1%Z); VFloat (num_of_Z 1%Z); VFloat (num_of_Z 1%Z); VFloat (num_of_Z 1%Z)])) None; larry_move MSum y 2%Z (Some (-1)%Z)) [[LInt 0%Z; LInt 1%Z; LInt 2%Z]; [LInt 0%Z; LInt 1%Z; LInt 2%Z; LInt 3%Z]]) = true.
Proof. by vm_compute. Qed.
(** la/tests/deflarry_test.py:2073 *)
Example deflarry__Test_calc__test_move_sum_2 :
  (x_near (y ← make (Nda DFloat (Arr [3; 4] [VFloat (num_of_Z 2%Z); VFloat (num_of_Z 2%Z); VFloat (num_of_Z 3%Z); VFloat (num_of_Z 1%Z); VFloat (num_of_Z 3%Z); VFloat (num_of_Z 2%Z); VFloat (num_of_Z 2%Z); VFloat (num_of_Z 1%Z); VFloat (num_of_Z 1%Z); VFloat (num_of_Z 1%Z); VFloat (num_of_Z 1%Z); VFloat (num_of_Z 1%Z)])) None; larry_move MSum y 2%Z (Some (-1)%Z)) [3; 4] [VFloat (NaN); VFloat (num_of_Z 4%Z); VFloat (num_of_Z 5%Z); VFloat (num_of_Z 4%Z); VFloat (NaN); VFloat (num_of_Z 5%Z); VFloat (num_of_Z 4%Z); VFloat (num_of_Z 3%Z); VFloat (NaN); VFloat (num_of_Z 2%Z); VFloat (num_of_Z 2%Z); VFloat (num_of_Z 2%Z)]) &&
  (label_is (y ← make (Nda DFloat (Arr [3; 4] [VFloat (num_of_Z 2%Z); VFloat (num_of_Z 2%Z); VFloat (num_of_Z 3%Z); VFloat (num_of_Z 1%Z); VFloat (num_of_Z 3%Z); VFloat (num_of_Z 2%Z); VFloat (num_of_Z 2%Z); VFloat (num_of_Z 1%Z); VFloat (num_of_Z 1%Z); VFloat (num_of_Z 1%Z); VFloat (num_of_Z 1%Z); VFloat (num_of_Z 1%Z)])) None; larry_move MSum y 2%Z (Some (-1)%Z)) [[LInt 0%Z; LInt 1%Z; LInt 2%Z]; [LInt 0%Z; LInt 1%Z; LInt 2%Z; LInt 3%Z]]) = true.
Proof. by vm_compute. Qed.
(** la/tests/deflarry_test.py:2090 *)
Example deflarry__Test_calc__test_move_sum_3 :
  (x_near (y ← make (Nda DFloat (Arr [3; 4] [VFloat (num_of_Z 2%Z); VFloat (num_of_Z 2%Z); VFloat (num_of_Z 3%Z); VFloat (num_of_Z 1%Z); VFloat (num_of_Z 3%Z); VFloat (num_of_Z 2%Z); VFloat (num_of_Z 2%Z); VFloat (num_of_Z 1%Z); VFloat (num_of_Z 1%Z); VFloat (num_of_Z 1%Z); VFloat (num_of_Z 1%Z); VFloat (num_of_Z 1%Z)])) None; larry_move MSum y 2%Z (Some 0%Z)) [3; 4] [VFloat (NaN); VFloat (NaN); VFloat (NaN); VFloat (NaN); VFloat (num_of_Z 5%Z); VFloat (num_of_Z 4%Z); VFloat (num_of_Z 5%Z); VFloat (num_of_Z 2%Z); VFloat (num_of_Z 4%Z); VFloat (num_of_Z 3%Z); VFloat (num_of_Z 3%Z); VFloat (num_of_Z 2%Z)]) &&
  (label_is (y ← make (Nda DFloat (Arr [3; 4] [VFloat (num_of_Z 2%Z); VFloat (num_of_Z 2%Z); VFloat (num_of_Z 3%Z); VFloat (num_of_Z 1%Z); VFloat (num_of_Z 3%Z); VFloat (num_of_Z 2%Z); VFloat (num_of_Z 2%Z); VFloat (num_of_Z 1%Z); VFloat (num_of_Z 1%Z); VFloat (num_of_Z 1%Z); VFloat (num_of_Z 1%Z); VFloat (num_of_Z 1%Z)])) None; larry_move MSum y 2%Z (Some 0%Z)) [[LInt 0%Z; LInt 1%Z; LInt 2%Z]; [LInt 0%Z; LInt 1%Z; LInt 2%Z; LInt 3%Z]]) = true.
Proof. by vm_compute. Qed.
(** la/tests/deflarry_test.py:2106 *)
Example deflarry__Test_calc__test_move_sum_4 :
  (x_near (y ← make (Nda DFloat (Arr [3; 4] [VFloat (num_of_Z 2%Z); VFloat (num_of_Z 2%Z); VFloat (num_of_Z 3%Z); VFloat (num_of_Z 1%Z); VFloat (num_of_Z 3%Z); VFloat (num_of_Z 2%Z); VFloat (num_of_Z 2%Z); VFloat (num_of_Z 1%Z); VFloat (num_of_Z 1%Z); VFloat (num_of_Z 1%Z); VFloat (num_of_Z 1%Z); VFloat (num_of_Z 1%Z)])) None; larry_move MSum y 1%Z (Some 0%Z)) [3; 4] [VFloat (num_of_Z 2%Z); VFloat (num_of_Z 2%Z); VFloat (num_of_Z 3%Z); VFloat (num_of_Z 1%Z); VFloat (num_of_Z 3%Z); VFloat (num_of_Z 2%Z); VFloat (num_of_Z 2%Z); VFloat (num_of_Z 1%Z); VFloat (num_of_Z 1%Z); VFloat (num_of_Z 1%Z); VFloat (num_of_Z 1%Z); VFloat (num_of_Z 1%Z)]) &&
  (label_is (y ← make (Nda DFloat (Arr [3; 4] [VFloat (num_of_Z 2%Z); VFloat (num_of_Z 2%Z); VFloat (num_of_Z 3%Z); VFloat (num_of_Z 1%Z); VFloat (num_of_Z 3%Z); VFloat (num_of_Z 2%Z); VFloat (num_of_Z 2%Z); VFloat (num_of_Z 1%Z); VFloat (num_of_Z 1%Z); VFloat (num_of_Z 1%Z); VFloat (num_of_Z 1%Z); VFloat (num_of_Z 1%Z)])) None; larry_move MSum y 1%Z (Some 0%Z)) [[LInt 0%Z; LInt 1%Z; LInt 2%Z]; [LInt 0%Z; LInt 1%Z; LInt 2%Z; LInt 3%Z]]) = true.
Proof. by vm_compute. Qed.
(** la/tests/deflarry_test.py:2120 *)
Example deflarry__Test_calc__test_move_sum_5 :
  (x_near (y ← make (Nda DFloat (Arr [3; 4] [VFloat (num_of_Z 2%Z); VFloat (num_of_Z 2%Z); VFloat (NaN); VFloat (num_of_Z 1%Z); VFloat (NaN); VFloat (NaN); VFloat (NaN); VFloat (num_of_Z 1%Z); VFloat (num_of_Z 1%Z); VFloat (num_of_Z 1%Z); VFloat (NaN); VFloat (num_of_Z 1%Z)])) None; larry_move MSum y 2%Z (Some (-1)%Z)) [3; 4] [VFloat (NaN); VFloat (num_of_Z 4%Z); VFloat (num_of_Z 2%Z); VFloat (num_of_Z 1%Z); VFloat (NaN); VFloat (NaN); VFloat (NaN); VFloat (num_of_Z 1%Z); VFloat (NaN); VFloat (num_of_Z 2%Z); VFloat (num_of_Z 1%Z); VFloat (num_of_Z 1%Z)]) &&
  (label_is (y ← make (Nda DFloat (Arr [3; 4] [VFloat (num_of_Z 2%Z); VFloat (num_of_Z 2%Z); VFloat (NaN); VFloat (num_of_Z 1%Z); VFloat (NaN); VFloat (NaN); VFloat (NaN); VFloat (num_of_Z 1%Z); VFloat (num_of_Z 1%Z); VFloat (num_of_Z 1%Z); VFloat (NaN); VFloat (num_of_Z 1%Z)])) None; larry_move MSum y 2%Z (Some (-1)%Z)) [[LInt 0%Z; LInt 1%Z; LInt 2%Z]; [LInt 0%Z; LInt 1%Z; LInt 2%Z; LInt 3%Z]]) = true.
Proof. by vm_compute. Qed.
(** la/tests/deflarry_test.py:2138 *)
Example deflarry__Test_calc__test_move_sum_7 :
  (x_near (y ← make (Nda DFloat (Arr [3; 4] [VFloat (num_of_Z 2%Z); VFloat (num_of_Z 2%Z); VFloat (NaN); VFloat (num_of_Z 1%Z); VFloat (NaN); VFloat (NaN); VFloat (NaN); VFloat (num_of_Z 1%Z); VFloat (num_of_Z 1%Z); VFloat (num_of_Z 1%Z); VFloat (NaN); VFloat (num_of_Z 1%Z)])) None; larry_move MSum y 2%Z (Some 0%Z)) [3; 4] [VFloat (NaN); VFloat (NaN); VFloat (NaN); VFloat (NaN); VFloat (num_of_Z 2%Z); VFloat (num_of_Z 2%Z); VFloat (NaN); VFloat (num_of_Z 2%Z); VFloat (num_of_Z 1%Z); VFloat (num_of_Z 1%Z); VFloat (NaN); VFloat (num_of_Z 2%Z)]) &&
  (label_is (y ← make (Nda DFloat (Arr [3; 4] [VFloat (num_of_Z 2%Z); VFloat (num_of_Z 2%Z); VFloat (NaN); VFloat (num_of_Z 1%Z); VFloat (NaN); VFloat (NaN); VFloat (NaN); VFloat (num_of_Z 1%Z); VFloat (num_of_Z 1%Z); VFloat (num_of_Z 1%Z); VFloat (NaN); VFloat (num_of_Z 1%Z)])) None; larry_move MSum y 2%Z (Some 0%Z)) [[LInt 0%Z; LInt 1%Z; LInt 2%Z]; [LInt 0%Z; LInt 1%Z; LInt 2%Z; LInt 3%Z]]) = true.
Proof. by vm_compute. Qed.
(** la/tests/deflarry_test.py:2152 *)
Example deflarry__Test_calc__test_move_sum_8 :
  (x_near (y ← make (Nda DFloat (Arr [3; 4] [VFloat (num_of_Z 2%Z); VFloat (num_of_Z 2%Z); VFloat (NaN); VFloat (num_of_Z 1%Z); VFloat (NaN); VFloat (NaN); VFloat (NaN); VFloat (num_of_Z 1%Z); VFloat (num_of_Z 1%Z); VFloat (num_of_Z 1%Z); VFloat (NaN); VFloat (num_of_Z 1%Z)])) None; larry_move MSum y 1%Z (Some 0%Z)) [3; 4] [VFloat (num_of_Z 2%Z); VFloat (num_of_Z 2%Z); VFloat (NaN); VFloat (num_of_Z 1%Z); VFloat (NaN); VFloat (NaN); VFloat (NaN); VFloat (num_of_Z 1%Z); VFloat (num_of_Z 1%Z); VFloat (num_of_Z 1%Z); VFloat (NaN); VFloat (num_of_Z 1%Z)]) &&
  (label_is (y ← make (Nda DFloat (Arr [3; 4] [VFloat (num_of_Z 2%Z); VFloat (num_of_Z 2%Z); VFloat (NaN); VFloat (num_of_Z 1%Z); VFloat (NaN); VFloat (NaN); VFloat (NaN); VFloat (num_of_Z 1%Z); VFloat (num_of_Z 1%Z); VFloat (num_of_Z 1%Z); VFloat (NaN); VFloat (num_of_Z 1%Z)])) None; larry_move MSum y 1%Z (Some 0%Z)) [[LInt 0%Z; LInt 1%Z; LInt 2%Z]; [LInt 0%Z; LInt 1%Z; LInt 2%Z; LInt 3%Z]]) = true.
Proof. by vm_compute. Qed.
(** la/tests/deflarry_test.py:2166 *)
Example deflarry__Test_calc__test_move_sum_9 :
  (x_near (y ← make (Nda DInt (Arr [5] [VInt 1%Z; VInt 2%Z; VInt 3%Z; VInt 4%Z; VInt 5%Z])) None; larry_move MSum y 2%Z (Some 0%Z)) [5] [VFloat (NaN); VFloat (num_of_Z 3%Z); VFloat (num_of_Z 5%Z); VFloat (num_of_Z 7%Z); VFloat (num_of_Z 9%Z)]) &&
  (label_is (y ← make (Nda DInt (Arr [5] [VInt 1%Z; VInt 2%Z; VInt 3%Z; VInt 4%Z; VInt 5%Z])) None; larry_move MSum y 2%Z (Some 0%Z)) [[LInt 0%Z; LInt 1%Z; LInt 2%Z; LInt 3%Z; LInt 4%Z]]) = true.
Proof. by vm_compute. Qed.
(** la/tests/deflarry_test.py:2178 *)
Example deflarry__Test_calc__test_move_sum_10 :
  (v_near (val_of_gres (y ← y ← make (Nda DFloat (Arr [1] [VFloat (PInf)])) None; larry_move MSum y 1%Z (Some (-1)%Z); larry_getitem y (XInt 0%Z))) (VFloat (PInf))) = true.
Proof. by vm_compute. Qed.
(** la/tests/deflarry_test.py:2183 *)
Example deflarry__Test_calc__test_movingsum_forward_1 :
  (x_near (y ← make (Nda DFloat (Arr [2; 5] [VFloat (num_of_Z 1%Z); VFloat (NaN); VFloat (num_of_Z 6%Z); VFloat (num_of_Z 0%Z); VFloat (num_of_Z 8%Z); VFloat (num_of_Z 2%Z); VFloat (num_of_Z 4%Z); VFloat (num_of_Z 8%Z); VFloat (num_of_Z 0%Z); VFloat (num_of_Z (-1)%Z)])) None; larry_movingsum_forward y 2%Z 0 (-1)%Z true) [2; 5] [VFloat (num_of_Z 2%Z); VFloat (num_of_Z 12%Z); VFloat (num_of_Z 6%Z); VFloat (num_of_Z 8%Z); VFloat (NaN); VFloat (num_of_Z 6%Z); VFloat (num_of_Z 12%Z); VFloat (num_of_Z 8%Z); VFloat (num_of_Z (-1)%Z); VFloat (NaN)]) &&
  (label_is (y ← make (Nda DFloat (Arr [2; 5] [VFloat (num_of_Z 1%Z); VFloat (NaN); VFloat (num_of_Z 6%Z); VFloat (num_of_Z 0%Z); VFloat (num_of_Z 8%Z); VFloat (num_of_Z 2%Z); VFloat (num_of_Z 4%Z); VFloat (num_of_Z 8%Z); VFloat (num_of_Z 0%Z); VFloat (num_of_Z (-1)%Z)])) None; larry_movingsum_forward y 2%Z 0 (-1)%Z true) [[LInt 0%Z; LInt 1%Z]; [LInt 0%Z; LInt 1%Z; LInt 2%Z; LInt 3%Z; LInt 4%Z]]) = true.
Proof. by vm_compute. Qed.
(** la/tests/deflarry_test.py:2197 *)
Example deflarry__Test_calc__test_movingsum_forward_2 :
  (x_near (y ← make (Nda DFloat (Arr [2; 5] [VFloat (num_of_Z 1%Z); VFloat (NaN); VFloat (num_of_Z 6%Z); VFloat (num_of_Z 0%Z); VFloat (num_of_Z 8%Z); VFloat (num_of_Z 2%Z); VFloat (num_of_Z 4%Z); VFloat (num_of_Z 8%Z); VFloat (num_of_Z 0%Z); VFloat (num_of_Z (-1)%Z)])) None; larry_movingsum_forward y 2%Z 0 (-1)%Z false) [2; 5] [VFloat (num_of_Z 1%Z); VFloat (num_of_Z 6%Z); VFloat (num_of_Z 6%Z); VFloat (num_of_Z 8%Z); VFloat (NaN); VFloat (num_of_Z 6%Z); VFloat (num_of_Z 12%Z); VFloat (num_of_Z 8%Z); VFloat (num_of_Z (-1)%Z); VFloat (NaN)]) &&
  (label_is (y ← make (Nda DFloat (Arr [2; 5] [VFloat (num_of_Z 1%Z); VFloat (NaN); VFloat (num_of_Z 6%Z); VFloat (num_of_Z 0%Z); VFloat (num_of_Z 8%Z); VFloat (num_of_Z 2%Z); VFloat (num_of_Z 4%Z); VFloat (num_of_Z 8%Z); VFloat (num_of_Z 0%Z); VFloat (num_of_Z (-1)%Z)])) None; larry_movingsum_forward y 2%Z 0 (-1)%Z false) [[LInt 0%Z; LInt 1%Z]; [LInt 0%Z; LInt 1%Z; LInt 2%Z; LInt 3%Z; LInt 4%Z]]) = true.
Proof. by vm_compute. Qed.
(** la/tests/deflarry_test.py:2211 *)
Example deflarry__Test_calc__test_movingsum_forward_3 :
  (x_near (y ← make (Nda DFloat (Arr [2; 5] [VFloat (num_of_Z 1%Z); VFloat (NaN); VFloat (num_of_Z 6%Z); VFloat (num_of_Z 0%Z); VFloat (num_of_Z 8%Z); VFloat (num_of_Z 2%Z); VFloat (num_of_Z 4%Z); VFloat (num_of_Z 8%Z); VFloat (num_of_Z 0%Z); VFloat (num_of_Z (-1)%Z)])) None; larry_movingsum_forward y 2%Z 1 (-1)%Z true) [2; 5] [VFloat (num_of_Z 12%Z); VFloat (num_of_Z 6%Z); VFloat (num_of_Z 8%Z); VFloat (NaN); VFloat (NaN); VFloat (num_of_Z 12%Z); VFloat (num_of_Z 8%Z); VFloat (num_of_Z (-1)%Z); VFloat (NaN); VFloat (NaN)]) &&
  (label_is (y ← make (Nda DFloat (Arr [2; 5] [VFloat (num_of_Z 1%Z); VFloat (NaN); VFloat (num_of_Z 6%Z); VFloat (num_of_Z 0%Z); VFloat (num_of_Z 8%Z); VFloat (num_of_Z 2%Z); VFloat (num_of_Z 4%Z); VFloat (num_of_Z 8%Z); VFloat (num_of_Z 0%Z); VFloat (num_of_Z (-1)%Z)])) None; larry_movingsum_forward y 2%Z 1 (-1)%Z true) [[LInt 0%Z; LInt 1%Z]; [LInt 0%Z; LInt 1%Z; LInt 2%Z; LInt 3%Z; LInt 4%Z]]) = true.
Proof. by vm_compute. Qed.
(** la/tests/deflarry_test.py:2225 *)
Example deflarry__Test_calc__test_movingsum_forward_4 :
  (x_near (y ← make (Nda DFloat (Arr [2; 5] [VFloat (num_of_Z 1%Z); VFloat (NaN); VFloat (num_of_Z 6%Z); VFloat (num_of_Z 0%Z); VFloat (num_of_Z 8%Z); VFloat (num_of_Z 2%Z); VFloat (num_of_Z 4%Z); VFloat (num_of_Z 8%Z); VFloat (num_of_Z 0%Z); VFloat (num_of_Z (-1)%Z)])) None; larry_movingsum_forward y 2%Z 1 (-1)%Z false) [2; 5] [VFloat (num_of_Z 6%Z); VFloat (num_of_Z 6%Z); VFloat (num_of_Z 8%Z); VFloat (NaN); VFloat (NaN); VFloat (num_of_Z 12%Z); VFloat (num_of_Z 8%Z); VFloat (num_of_Z (-1)%Z); VFloat (NaN); VFloat (NaN)]) &&
  (label_is (y ← make (Nda DFloat (Arr [2; 5] [VFloat (num_of_Z 1%Z); VFloat (NaN); VFloat (num_of_Z 6%Z); VFloat (num_of_Z 0%Z); VFloat (num_of_Z 8%Z); VFloat (num_of_Z 2%Z); VFloat (num_of_Z 4%Z); VFloat (num_of_Z 8%Z); VFloat (num_of_Z 0%Z); VFloat (num_of_Z (-1)%Z)])) None; larry_movingsum_forward y 2%Z 1 (-1)%Z false) [[LInt 0%Z; LInt 1%Z]; [LInt 0%Z; LInt 1%Z; LInt 2%Z; LInt 3%Z; LInt 4%Z]]) = true.
Proof. by vm_compute. Qed.
(** la/tests/deflarry_test.py:2239 *)
Example deflarry__Test_calc__test_movingsum_forward_5 :
  (x_near (y ← make (Nda DFloat (Arr [2; 5] [VFloat (num_of_Z 1%Z); VFloat (NaN); VFloat (num_of_Z 6%Z); VFloat (num_of_Z 0%Z); VFloat (num_of_Z 8%Z); VFloat (num_of_Z 2%Z); VFloat (num_of_Z 4%Z); VFloat (num_of_Z 8%Z); VFloat (num_of_Z 0%Z); VFloat (num_of_Z (-1)%Z)])) None; larry_movingsum_forward y 1%Z 1 0%Z false) [2; 5] [VFloat (num_of_Z 2%Z); VFloat (num_of_Z 4%Z); VFloat (num_of_Z 8%Z); VFloat (num_of_Z 0%Z); VFloat (num_of_Z (-1)%Z); VFloat (NaN); VFloat (NaN); VFloat (NaN); VFloat (NaN); VFloat (NaN)]) &&
  (label_is (y ← make (Nda DFloat (Arr [2; 5] [VFloat (num_of_Z 1%Z); VFloat (NaN); VFloat (num_of_Z 6%Z); VFloat (num_of_Z 0%Z); VFloat (num_of_Z 8%Z); VFloat (num_of_Z 2%Z); VFloat (num_of_Z 4%Z); VFloat (num_of_Z 8%Z); VFloat (num_of_Z 0%Z); VFloat (num_of_Z (-1)%Z)])) None; larry_movingsum_forward y 1%Z 1 0%Z false) [[LInt 0%Z; LInt 1%Z]; [LInt 0%Z; LInt 1%Z; LInt 2%Z; LInt 3%Z; LInt 4%Z]]) = true.
Proof. by vm_compute. Qed.
(** la/tests/deflarry_test.py:2490 *)
Example deflarry__Test_calc__test_move_ranking_1 :
  (x_near (y ← make (Nda DFloat (Arr [2; 5] [VFloat (NaN); VFloat (NaN); VFloat (NaN); VFloat (NaN); VFloat (NaN); VFloat (NaN); VFloat (NaN); VFloat (NaN); VFloat (NaN); VFloat (NaN)])) None; larry_move_ranking view_of y 2%Z (Some (-1)%Z) MStrides) [2; 5] [VFloat (NaN); VFloat (NaN); VFloat (NaN); VFloat (NaN); VFloat (NaN); VFloat (NaN); VFloat (NaN); VFloat (NaN); VFloat (NaN); VFloat (NaN)]) = true.
Proof. by vm_compute. Qed.
(** la/tests/deflarry_test.py:2502 *)
Example deflarry__Test_calc__test_move_ranking_2 :
  (x_near (y ← make (Nda DFloat (Arr [2; 5] [VFloat (num_of_Z 1%Z); VFloat (NaN); VFloat (num_of_Z 6%Z); VFloat (num_of_Z 0%Z); VFloat (num_of_Z 8%Z); VFloat (num_of_Z 2%Z); VFloat (num_of_Z 4%Z); VFloat (num_of_Z 8%Z); VFloat (num_of_Z 0%Z); VFloat (num_of_Z (-1)%Z)])) None; larry_move_ranking view_of y 2%Z (Some (-1)%Z) MStrides) [2; 5] [VFloat (NaN); VFloat (NaN); VFloat (NaN); VFloat (num_of_Z (-1)%Z); VFloat (num_of_Z 1%Z); VFloat (NaN); VFloat (num_of_Z 1%Z); VFloat (num_of_Z 1%Z); VFloat (num_of_Z (-1)%Z); VFloat (num_of_Z (-1)%Z)]) = true.
Proof. by vm_compute. Qed.
(** la/tests/deflarry_test.py:2516 *)
Example deflarry__Test_calc__test_move_ranking_3 :
  (x_near (y ← make (Nda DFloat (Arr [2; 5] [VFloat (num_of_Z 1%Z); VFloat (NaN); VFloat (num_of_Z 6%Z); VFloat (num_of_Z 0%Z); VFloat (num_of_Z 8%Z); VFloat (num_of_Z 2%Z); VFloat (num_of_Z 4%Z); VFloat (num_of_Z 8%Z); VFloat (num_of_Z 0%Z); VFloat (num_of_Z (-1)%Z)])) None; larry_move_ranking view_of y 2%Z (Some 0%Z) MStrides) [2; 5] [VFloat (NaN); VFloat (NaN); VFloat (NaN); VFloat (NaN); VFloat (NaN); VFloat (num_of_Z 1%Z); VFloat (NaN); VFloat (num_of_Z 1%Z); VFloat (num_of_Z 0%Z); VFloat (num_of_Z (-1)%Z)]) = true.
Proof. by vm_compute. Qed.
(** la/tests/deflarry_test.py:2530 *)
Example deflarry__Test_calc__test_move_ranking_4 :
  (x_near (y ← make (Nda DFloat (Arr [3; 2] [VFloat (NaN); VFloat (num_of_Z 2%Z); VFloat (num_of_Z 1%Z); VFloat (num_of_Z 3%Z); VFloat (num_of_Z 3%Z); VFloat (num_of_Z 1%Z)])) None; larry_move_ranking view_of y 2%Z (Some (-1)%Z) MStrides) [3; 2] [VFloat (NaN); VFloat (NaN); VFloat (NaN); VFloat (num_of_Z 1%Z); VFloat (NaN); VFloat (num_of_Z (-1)%Z)]) = true.
Proof. by vm_compute. Qed.
(** la/tests/deflarry_test.py:2579 *)
Example deflarry__Test_calc__test_quantile_5 :
  (larry_same (y ← make (Nda DInt (Arr [3; 4] [VInt 1%Z; VInt 2%Z; VInt 3%Z; VInt 1%Z; VInt 2%Z; VInt 3%Z; VInt 1%Z; VInt 2%Z; VInt 3%Z; VInt 1%Z; VInt 2%Z; VInt 3%Z])) None; larry_quantile np_argsort y 3%Z None) (make (Nda DFloat (Arr [3; 4] [VFloat (num_of_Z (-1)%Z); VFloat (num_of_Z 0%Z); VFloat (num_of_Z 1%Z); VFloat (num_of_Z (-1)%Z); VFloat (num_of_Z 0%Z); VFloat (num_of_Z 1%Z); VFloat (num_of_Z (-1)%Z); VFloat (num_of_Z 0%Z); VFloat (num_of_Z 1%Z); VFloat (num_of_Z (-1)%Z); VFloat (num_of_Z 0%Z); VFloat (num_of_Z 1%Z)])) None)) = true.
Proof. by vm_compute. Qed.
(** la/tests/deflarry_test.py:2590 *)
Example deflarry__Test_calc__test_cut_missing_1 :
  (x_near (y ← make (Nda DFloat (Arr [4; 5] [VFloat (NaN); VFloat (num_of_Z 1%Z); VFloat (num_of_Z 2%Z); VFloat (num_of_Z 3%Z); VFloat (num_of_Z 4%Z); VFloat (num_of_Z 1%Z); VFloat (NaN); VFloat (num_of_Z 2%Z); VFloat (NaN); VFloat (NaN); VFloat (num_of_Z 2%Z); VFloat (num_of_Z 2%Z); VFloat (NaN); VFloat (NaN); VFloat (NaN); VFloat (num_of_Z 3%Z); VFloat (num_of_Z 3%Z); VFloat (num_of_Z 3%Z); VFloat (num_of_Z 3%Z); VFloat (NaN)])) None; cut_missing y (ra 9%Z 10) (Some 0%Z)) [4; 5] [VFloat (NaN); VFloat (num_of_Z 1%Z); VFloat (num_of_Z 2%Z); VFloat (num_of_Z 3%Z); VFloat (num_of_Z 4%Z); VFloat (num_of_Z 1%Z); VFloat (NaN); VFloat (num_of_Z 2%Z); VFloat (NaN); VFloat (NaN); VFloat (num_of_Z 2%Z); VFloat (num_of_Z 2%Z); VFloat (NaN); VFloat (NaN); VFloat (NaN); VFloat (num_of_Z 3%Z); VFloat (num_of_Z 3%Z); VFloat (num_of_Z 3%Z); VFloat (num_of_Z 3%Z); VFloat (NaN)]) = true.
Proof. by vm_compute. Qed.
(** la/tests/deflarry_test.py:2605 *)
Example deflarry__Test_calc__test_cut_missing_2 :
  (x_near (y ← make (Nda DFloat (Arr [4; 5] [VFloat (NaN); VFloat (num_of_Z 1%Z); VFloat (num_of_Z 2%Z); VFloat (num_of_Z 3%Z); VFloat (num_of_Z 4%Z); VFloat (num_of_Z 1%Z); VFloat (NaN); VFloat (num_of_Z 2%Z); VFloat (NaN); VFloat (NaN); VFloat (num_of_Z 2%Z); VFloat (num_of_Z 2%Z); VFloat (NaN); VFloat (NaN); VFloat (NaN); VFloat (num_of_Z 3%Z); VFloat (num_of_Z 3%Z); VFloat (num_of_Z 3%Z); VFloat (num_of_Z 3%Z); VFloat (NaN)])) None; cut_missing y (ra 9%Z 10) (Some 1%Z)) [4; 5] [VFloat (NaN); VFloat (num_of_Z 1%Z); VFloat (num_of_Z 2%Z); VFloat (num_of_Z 3%Z); VFloat (num_of_Z 4%Z); VFloat (num_of_Z 1%Z); VFloat (NaN); VFloat (num_of_Z 2%Z); VFloat (NaN); VFloat (NaN); VFloat (num_of_Z 2%Z); VFloat (num_of_Z 2%Z); VFloat (NaN); VFloat (NaN); VFloat (NaN); VFloat (num_of_Z 3%Z); VFloat (num_of_Z 3%Z); VFloat (num_of_Z 3%Z); VFloat (num_of_Z 3%Z); VFloat (NaN)]) = true.
Proof. by vm_compute. Qed.
(** la/tests/deflarry_test.py:2620 *)
Example deflarry__Test_calc__test_cut_missing_3 :
  (x_near (y ← make (Nda DFloat (Arr [4; 5] [VFloat (NaN); VFloat (num_of_Z 1%Z); VFloat (num_of_Z 2%Z); VFloat (num_of_Z 3%Z); VFloat (num_of_Z 4%Z); VFloat (num_of_Z 1%Z); VFloat (NaN); VFloat (num_of_Z 2%Z); VFloat (NaN); VFloat (NaN); VFloat (num_of_Z 2%Z); VFloat (num_of_Z 2%Z); VFloat (NaN); VFloat (NaN); VFloat (NaN); VFloat (num_of_Z 3%Z); VFloat (num_of_Z 3%Z); VFloat (num_of_Z 3%Z); VFloat (num_of_Z 3%Z); VFloat (NaN)])) None; cut_missing y (ra 1%Z 2) (Some 0%Z)) [4; 3] [VFloat (NaN); VFloat (num_of_Z 1%Z); VFloat (num_of_Z 2%Z); VFloat (num_of_Z 1%Z); VFloat (NaN); VFloat (num_of_Z 2%Z); VFloat (num_of_Z 2%Z); VFloat (num_of_Z 2%Z); VFloat (NaN); VFloat (num_of_Z 3%Z); VFloat (num_of_Z 3%Z); VFloat (num_of_Z 3%Z)]) = true.
Proof. by vm_compute. Qed.
(** la/tests/deflarry_test.py:2635 *)
Example deflarry__Test_calc__test_cut_missing_4 :
  (x_near (y ← make (Nda DFloat (Arr [4; 5] [VFloat (NaN); VFloat (num_of_Z 1%Z); VFloat (num_of_Z 2%Z); VFloat (num_of_Z 3%Z); VFloat (num_of_Z 4%Z); VFloat (num_of_Z 1%Z); VFloat (NaN); VFloat (num_of_Z 2%Z); VFloat (NaN); VFloat (NaN); VFloat (num_of_Z 2%Z); VFloat (num_of_Z 2%Z); VFloat (NaN); VFloat (NaN); VFloat (NaN); VFloat (num_of_Z 3%Z); VFloat (num_of_Z 3%Z); VFloat (num_of_Z 3%Z); VFloat (num_of_Z 3%Z); VFloat (NaN)])) None; cut_missing y (ra 1%Z 2) (Some 1%Z)) [2; 5] [VFloat (NaN); VFloat (num_of_Z 1%Z); VFloat (num_of_Z 2%Z); VFloat (num_of_Z 3%Z); VFloat (num_of_Z 4%Z); VFloat (num_of_Z 3%Z); VFloat (num_of_Z 3%Z); VFloat (num_of_Z 3%Z); VFloat (num_of_Z 3%Z); VFloat (NaN)]) = true.
Proof. by vm_compute. Qed.
(** la/tests/deflarry_test.py:2648 *)
Example deflarry__Test_calc__test_ismissing_1 :
  (larry_same (y ← make (Nda DFloat (Arr [2] [VFloat (num_of_Z 1%Z); VFloat (NaN)])) None; Ok (larry_ismissing y)) (make (Nda DBool (Arr [2] [VBool false; VBool true])) None)) = true.
Proof. by vm_compute. Qed.
(** la/tests/deflarry_test.py:2655 *)
Example deflarry__Test_calc__test_ismissing_2 :
  (larry_same (y ← make (Nda DStr (Arr [2] [VStr "string"%string; VStr ""%string])) None; Ok (larry_ismissing y)) (make (Nda DBool (Arr [2] [VBool false; VBool true])) None)) = true.
Proof. by vm_compute. Qed.
(** la/tests/deflarry_test.py:2662 *)
Example deflarry__Test_calc__test_ismissing_3 :
  (larry_same (y ← make (Nda DObj (Arr [2] [VStr ""%string; VNone])) None; Ok (larry_ismissing y)) (make (Nda DBool (Arr [2] [VBool false; VBool true])) None)) = true.
Proof. by vm_compute. Qed.
(** la/tests/deflarry_test.py:2669 *)
Example deflarry__Test_calc__test_ismissing_4 :
  (larry_same (y ← make (Nda DBool (Arr [2] [VBool false; VBool true])) None; Ok (larry_ismissing y)) (make (Nda DBool (Arr [2] [VBool false; VBool false])) None)) = true.
Proof. by vm_compute. Qed.
(** la/tests/deflarry_test.py:2693 *)
Example deflarry__Test_alignment__test_morph_1 :
  (x_near (y ← make (Nda DFloat (Arr [3; 2] [VFloat (NaN); VFloat (NaN); VFloat (num_of_Z 1%Z); VFloat (num_of_Z 2%Z); VFloat (num_of_Z 3%Z); VFloat (num_of_Z 4%Z)])) None; morph y [LInt 1%Z; LInt 0%Z; LInt 3%Z; LInt 2%Z] 0%Z) [4; 2] [VFloat (num_of_Z 1%Z); VFloat (num_of_Z 2%Z); VFloat (NaN); VFloat (NaN); VFloat (NaN); VFloat (NaN); VFloat (num_of_Z 3%Z); VFloat (num_of_Z 4%Z)]) &&
  (label_is (y ← make (Nda DFloat (Arr [3; 2] [VFloat (NaN); VFloat (NaN); VFloat (num_of_Z 1%Z); VFloat (num_of_Z 2%Z); VFloat (num_of_Z 3%Z); VFloat (num_of_Z 4%Z)])) None; morph y [LInt 1%Z; LInt 0%Z; LInt 3%Z; LInt 2%Z] 0%Z) [[LInt 1%Z; LInt 0%Z; LInt 3%Z; LInt 2%Z]; [LInt 0%Z; LInt 1%Z]]) = true.
Proof. by vm_compute. Qed.
(** la/tests/deflarry_test.py:2710 *)
Example deflarry__Test_alignment__test_morph_2 :
  (x_near (y ← make (Nda DFloat (Arr [3; 2] [VFloat (NaN); VFloat (NaN); VFloat (num_of_Z 1%Z); VFloat (num_of_Z 2%Z); VFloat (num_of_Z 3%Z); VFloat (num_of_Z 4%Z)])) None; morph y [LInt 1%Z; LInt 0%Z; LInt 3%Z; LInt 2%Z] 1%Z) [3; 4] [VFloat (NaN); VFloat (NaN); VFloat (NaN); VFloat (NaN); VFloat (num_of_Z 2%Z); VFloat (num_of_Z 1%Z); VFloat (NaN); VFloat (NaN); VFloat (num_of_Z 4%Z); VFloat (num_of_Z 3%Z); VFloat (NaN); VFloat (NaN)]) &&
  (label_is (y ← make (Nda DFloat (Arr [3; 2] [VFloat (NaN); VFloat (NaN); VFloat (num_of_Z 1%Z); VFloat (num_of_Z 2%Z); VFloat (num_of_Z 3%Z); VFloat (num_of_Z 4%Z)])) None; morph y [LInt 1%Z; LInt 0%Z; LInt 3%Z; LInt 2%Z] 1%Z) [[LInt 0%Z; LInt 1%Z; LInt 2%Z]; [LInt 1%Z; LInt 0%Z; LInt 3%Z; LInt 2%Z]]) = true.
Proof. by vm_compute. Qed.
(** la/tests/deflarry_test.py:2726 *)
Example deflarry__Test_alignment__test_morph_3 :
  (x_near (y ← make (Nda DFloat (Arr [3; 2] [VFloat (NaN); VFloat (NaN); VFloat (num_of_Z 1%Z); VFloat (num_of_Z 2%Z); VFloat (num_of_Z 3%Z); VFloat (num_of_Z 4%Z)])) None; morph y [LInt 0%Z; LInt 1%Z; LInt 2%Z] 0%Z) [3; 2] [VFloat (NaN); VFloat (NaN); VFloat (num_of_Z 1%Z); VFloat (num_of_Z 2%Z); VFloat (num_of_Z 3%Z); VFloat (num_of_Z 4%Z)]) &&
  (label_is (y ← make (Nda DFloat (Arr [3; 2] [VFloat (NaN); VFloat (NaN); VFloat (num_of_Z 1%Z); VFloat (num_of_Z 2%Z); VFloat (num_of_Z 3%Z); VFloat (num_of_Z 4%Z)])) None; morph y [LInt 0%Z; LInt 1%Z; LInt 2%Z] 0%Z) [[LInt 0%Z; LInt 1%Z; LInt 2%Z]; [LInt 0%Z; LInt 1%Z]]) = true.
Proof. by vm_compute. Qed.
(** la/tests/deflarry_test.py:2742 *)
Example deflarry__Test_alignment__test_morph_4 :
  (x_near (y ← make (Nda DStr (Arr [3] [VStr "a"%string; VStr "b"%string; VStr "cc"%string])) None; morph y [LInt 2%Z; LInt 1%Z; LInt 0%Z] 0%Z) [3] [VStr "cc"%string; VStr "b"%string; VStr "a"%string]) &&
  (label_is (y ← make (Nda DStr (Arr [3] [VStr "a"%string; VStr "b"%string; VStr "cc"%string])) None; morph y [LInt 2%Z; LInt 1%Z; LInt 0%Z] 0%Z) [[LInt 2%Z; LInt 1%Z; LInt 0%Z]]) = true.
Proof. by vm_compute. Qed.
(** la/tests/deflarry_test.py:2755 *)
Example deflarry__Test_alignment__test_morph_5 :
  (x_near (y ← make (Nda DStr (Arr [3] [VStr "a"%string; VStr "b"%string; VStr "cc"%string])) None; morph y [LInt 2%Z; LInt 1%Z; LInt 0%Z; LInt 3%Z] 0%Z) [4] [VStr "cc"%string; VStr "b"%string; VStr "a"%string; VStr ""%string]) &&
  (label_is (y ← make (Nda DStr (Arr [3] [VStr "a"%string; VStr "b"%string; VStr "cc"%string])) None; morph y [LInt 2%Z; LInt 1%Z; LInt 0%Z; LInt 3%Z] 0%Z) [[LInt 2%Z; LInt 1%Z; LInt 0%Z; LInt 3%Z]]) = true.
Proof. by vm_compute. Qed.
(** la/tests/deflarry_test.py:2782 *)
Example deflarry__Test_alignment__test_morph_7 :
  (raises (y ← make (Nda DInt (Arr [3] [VInt 1%Z; VInt 2%Z; VInt 3%Z])) None; morph y [LInt 0%Z; LInt 0%Z] 0%Z) IndexError) = true.
Proof. by vm_compute. Qed.
(** la/tests/deflarry_test.py:2786 *)
Example deflarry__Test_alignment__test_morph_8 :
  (larry_same (y ← make (Nda DInt (Arr [2] [VInt 1%Z; VInt 2%Z])) None; morph y [LInt 1%Z; LInt 0%Z] 0%Z) (make (Nda DInt (Arr [2] [VInt 2%Z; VInt 1%Z])) (Some [[LInt 1%Z; LInt 0%Z]]))) = true.
Proof. by vm_compute. Qed.
(** la/tests/deflarry_test.py:2793 *)
Example deflarry__Test_alignment__test_morph_9 :
  (larry_same (y ← make (Nda DInt (Arr [2] [VInt 1%Z; VInt 2%Z])) None; morph y [LInt 10%Z; LInt 0%Z] 0%Z) (make (Nda DFloat (Arr [2] [VFloat (NaN); VFloat (num_of_Z 1%Z)])) (Some [[LInt 10%Z; LInt 0%Z]]))) = true.
Proof. by vm_compute. Qed.
(** la/tests/deflarry_test.py:2800 *)
Example deflarry__Test_alignment__test_morph_10 :
  (larry_same (y ← make (Nda DBool (Arr [2] [VBool true; VBool false])) None; morph y [LInt 1%Z; LInt 0%Z] 0%Z) (make (Nda DBool (Arr [2] [VBool false; VBool true])) (Some [[LInt 1%Z; LInt 0%Z]]))) = true.
Proof. by vm_compute. Qed.
(** la/tests/deflarry_test.py:2807 *)
Example deflarry__Test_alignment__test_morph_11 :
  (larry_same (y ← make (Nda DBool (Arr [2] [VBool true; VBool false])) None; morph y [LInt 10%Z; LInt 0%Z] 0%Z) (make (Nda DFloat (Arr [2] [VFloat (NaN); VFloat (num_of_Z 1%Z)])) (Some [[LInt 10%Z; LInt 0%Z]]))) = true.
Proof. by vm_compute. Qed.
(** la/tests/deflarry_test.py:2814 *)
Example deflarry__Test_alignment__test_morph12 :
  (larry_same (y ← make (Nda DFloat (Arr [0] [])) None; morph y [LInt 1%Z; LInt 2%Z] 0%Z) (make (Nda DFloat (Arr [2] [VFloat (NaN); VFloat (NaN)])) (Some [[LInt 1%Z; LInt 2%Z]]))) = true.
Proof. by vm_compute. Qed.
(** la/tests/deflarry_test.py:2821 *)
Example deflarry__Test_alignment__test_morph_like_1 :
  (x_near (y ← make (Nda DFloat (Arr [3; 2] [VFloat (NaN); VFloat (NaN); VFloat (num_of_Z 1%Z); VFloat (num_of_Z 2%Z); VFloat (num_of_Z 3%Z); VFloat (num_of_Z 4%Z)])) None; z ← y ← y ← make (Nda DFloat (Arr [3; 2] [VFloat (NaN); VFloat (NaN); VFloat (num_of_Z 1%Z); VFloat (num_of_Z 2%Z); VFloat (num_of_Z 3%Z); VFloat (num_of_Z 4%Z)])) None; Ok (Larry (lx y) (<[0 := [LInt 2%Z; LInt 1%Z; LInt 0%Z]]> (llabel y))); Ok (Larry (lx y) (<[1 := [LInt 1%Z; LInt 0%Z]]> (llabel y))); morph_like y z) [3; 2] [VFloat (num_of_Z 4%Z); VFloat (num_of_Z 3%Z); VFloat (num_of_Z 2%Z); VFloat (num_of_Z 1%Z); VFloat (NaN); VFloat (NaN)]) &&
  (label_is (y ← make (Nda DFloat (Arr [3; 2] [VFloat (NaN); VFloat (NaN); VFloat (num_of_Z 1%Z); VFloat (num_of_Z 2%Z); VFloat (num_of_Z 3%Z); VFloat (num_of_Z 4%Z)])) None; z ← y ← y ← make (Nda DFloat (Arr [3; 2] [VFloat (NaN); VFloat (NaN); VFloat (num_of_Z 1%Z); VFloat (num_of_Z 2%Z); VFloat (num_of_Z 3%Z); VFloat (num_of_Z 4%Z)])) None; Ok (Larry (lx y) (<[0 := [LInt 2%Z; LInt 1%Z; LInt 0%Z]]> (llabel y))); Ok (Larry (lx y) (<[1 := [LInt 1%Z; LInt 0%Z]]> (llabel y))); morph_like y z) [[LInt 2%Z; LInt 1%Z; LInt 0%Z]; [LInt 1%Z; LInt 0%Z]]) = true.
Proof. by vm_compute. Qed.
(** la/tests/deflarry_test.py:2836 *)
Example deflarry__Test_alignment__test_lag_1 :
  (x_near (y ← make (Nda DFloat (Arr [3; 2] [VFloat (NaN); VFloat (NaN); VFloat (num_of_Z 1%Z); VFloat (num_of_Z 2%Z); VFloat (num_of_Z 3%Z); VFloat (num_of_Z 4%Z)])) None; z ← y ← make (Nda DFloat (Arr [3; 2] [VFloat (NaN); VFloat (NaN); VFloat (num_of_Z 1%Z); VFloat (num_of_Z 2%Z); VFloat (num_of_Z 3%Z); VFloat (num_of_Z 4%Z)])) None; lag y 1%Z (Some (-1)%Z); larry_truediv Py3 y (OpLarry z)) [3; 1] [VFloat (NaN); VFloat (num_of_Z 2%Z); VFloat (ra 13333333333333333%Z 10000000000000000)]) &&
  (label_is (y ← make (Nda DFloat (Arr [3; 2] [VFloat (NaN); VFloat (NaN); VFloat (num_of_Z 1%Z); VFloat (num_of_Z 2%Z); VFloat (num_of_Z 3%Z); VFloat (num_of_Z 4%Z)])) None; z ← y ← make (Nda DFloat (Arr [3; 2] [VFloat (NaN); VFloat (NaN); VFloat (num_of_Z 1%Z); VFloat (num_of_Z 2%Z); VFloat (num_of_Z 3%Z); VFloat (num_of_Z 4%Z)])) None; lag y 1%Z (Some (-1)%Z); larry_truediv Py3 y (OpLarry z)) [[LInt 0%Z; LInt 1%Z; LInt 2%Z]; [LInt 1%Z]]) = true.
Proof. by vm_compute. Qed.
(** la/tests/deflarry_test.py:2848 *)
Example deflarry__Test_alignment__test_lag_2 :
  (larry_same (y ← make (Nda DInt (Arr [3] [VInt 1%Z; VInt 2%Z; VInt 3%Z])) None; lag y 0%Z (Some (-1)%Z)) (make (Nda DInt (Arr [3] [VInt 1%Z; VInt 2%Z; VInt 3%Z])) None)) = true.
Proof. by vm_compute. Qed.
(** la/tests/deflarry_test.py:2854 *)
Example deflarry__Test_alignment__test_lag_3 :
  (larry_same (y ← make (Nda DInt (Arr [3] [VInt 1%Z; VInt 2%Z; VInt 3%Z])) None; lag y (-1)%Z (Some (-1)%Z)) (make (Nda DInt (Arr [2] [VInt 2%Z; VInt 3%Z])) (Some [[LInt 0%Z; LInt 1%Z]]))) = true.
Proof. by vm_compute. Qed.
(** la/tests/deflarry_test.py:2861 *)
Example deflarry__Test_alignment__test_lag_4 :
  (larry_same (y ← make (Nda DInt (Arr [2; 3] [VInt 1%Z; VInt 2%Z; VInt 3%Z; VInt 4%Z; VInt 5%Z; VInt 6%Z])) None; lag y (-1)%Z (Some (-1)%Z)) (make (Nda DInt (Arr [2; 2] [VInt 2%Z; VInt 3%Z; VInt 5%Z; VInt 6%Z])) (Some [[LInt 0%Z; LInt 1%Z]; [LInt 0%Z; LInt 1%Z]]))) = true.
Proof. by vm_compute. Qed.
(** la/tests/deflarry_test.py:2868 *)
Example deflarry__Test_alignment__test_lag_5 :
  (larry_same (y ← make (Nda DInt (Arr [2; 3] [VInt 1%Z; VInt 2%Z; VInt 3%Z; VInt 4%Z; VInt 5%Z; VInt 6%Z])) None; lag y (-1)%Z (Some 0%Z)) (make (Nda DInt (Arr [1; 3] [VInt 4%Z; VInt 5%Z; VInt 6%Z])) (Some [[LInt 0%Z]; [LInt 0%Z; LInt 1%Z; LInt 2%Z]]))) = true.
Proof. by vm_compute. Qed.
(** la/tests/deflarry_test.py:2875 *)
Example deflarry__Test_alignment__test_lag_6 :
  (larry_same (y ← make (Nda DInt (Arr [2; 3] [VInt 1%Z; VInt 2%Z; VInt 3%Z; VInt 4%Z; VInt 5%Z; VInt 6%Z])) None; lag y 1%Z (Some 0%Z)) (make (Nda DInt (Arr [1; 3] [VInt 1%Z; VInt 2%Z; VInt 3%Z])) (Some [[LInt 1%Z]; [LInt 0%Z; LInt 1%Z; LInt 2%Z]]))) = true.
Proof. by vm_compute. Qed.
(** la/tests/deflarry_test.py:2882 *)
Example deflarry__Test_alignment__test_flatten_1 :
  (label_is (y ← make (Nda DInt (Arr [3] [VInt 1%Z; VInt 2%Z; VInt 3%Z])) None; larry_flatten y "C"%string) [[LTup [LInt 0%Z]; LTup [LInt 1%Z]; LTup [LInt 2%Z]]]) = true.
Proof. by vm_compute. Qed.
(** la/tests/deflarry_test.py:2891 *)
Example deflarry__Test_alignment__test_flatten_2 :
  (label_is (y ← make (Nda DInt (Arr [3] [VInt 1%Z; VInt 2%Z; VInt 3%Z])) None; larry_flatten y "F"%string) [[LTup [LInt 0%Z]; LTup [LInt 1%Z]; LTup [LInt 2%Z]]]) = true.
Proof. by vm_compute. Qed.
(** la/tests/deflarry_test.py:2900 *)
Example deflarry__Test_alignment__test_flatten_3 :
  (label_is (y ← make (Nda DInt (Arr [2; 2] [VInt 1%Z; VInt 2%Z; VInt 3%Z; VInt 4%Z])) None; larry_flatten y "C"%string) [[LTup [LInt 0%Z; LInt 0%Z]; LTup [LInt 0%Z; LInt 1%Z]; LTup [LInt 1%Z; LInt 0%Z]; LTup [LInt 1%Z; LInt 1%Z]]]) = true.
Proof. by vm_compute. Qed.
(** la/tests/deflarry_test.py:2908 *)
Example deflarry__Test_alignment__test_flatten_4 :
  (label_is (y ← make (Nda DInt (Arr [2; 2] [VInt 1%Z; VInt 2%Z; VInt 3%Z; VInt 4%Z])) None; larry_flatten y "F"%string) [[LTup [LInt 0%Z; LInt 0%Z]; LTup [LInt 1%Z; LInt 0%Z]; LTup [LInt 0%Z; LInt 1%Z]; LTup [LInt 1%Z; LInt 1%Z]]]) = true.
Proof. by vm_compute. Qed.
(** la/tests/deflarry_test.py:2917 *)
Example deflarry__Test_alignment__test_unflatten_1 :
  (labels_same (y ← y ← make (Nda DInt (Arr [3] [VInt 1%Z; VInt 2%Z; VInt 3%Z])) None; larry_flatten y "C"%string; larry_unflatten y) (make (Nda DInt (Arr [3] [VInt 1%Z; VInt 2%Z; VInt 3%Z])) None)) &&
  (xs_near (y ← y ← make (Nda DInt (Arr [3] [VInt 1%Z; VInt 2%Z; VInt 3%Z])) None; larry_flatten y "C"%string; larry_unflatten y) (make (Nda DInt (Arr [3] [VInt 1%Z; VInt 2%Z; VInt 3%Z])) None)) = true.
Proof. by vm_compute. Qed.
(** la/tests/deflarry_test.py:2926 *)
Example deflarry__Test_alignment__test_unflatten_2 :
  (labels_same (y ← y ← make (Nda DInt (Arr [3] [VInt 1%Z; VInt 2%Z; VInt 3%Z])) None; larry_flatten y "F"%string; larry_unflatten y) (make (Nda DInt (Arr [3] [VInt 1%Z; VInt 2%Z; VInt 3%Z])) None)) &&
  (xs_near (y ← y ← make (Nda DInt (Arr [3] [VInt 1%Z; VInt 2%Z; VInt 3%Z])) None; larry_flatten y "F"%string; larry_unflatten y) (make (Nda DInt (Arr [3] [VInt 1%Z; VInt 2%Z; VInt 3%Z])) None)) = true.
Proof. by vm_compute. Qed.
(** la/tests/deflarry_test.py:2935 *)
Example deflarry__Test_alignment__test_unflatten_3 :
  (labels_same (y ← y ← make (Nda DInt (Arr [2; 2] [VInt 1%Z; VInt 2%Z; VInt 3%Z; VInt 4%Z])) None; larry_flatten y "C"%string; larry_unflatten y) (make (Nda DInt (Arr [2; 2] [VInt 1%Z; VInt 2%Z; VInt 3%Z; VInt 4%Z])) None)) &&
  (xs_near (y ← y ← make (Nda DInt (Arr [2; 2] [VInt 1%Z; VInt 2%Z; VInt 3%Z; VInt 4%Z])) None; larry_flatten y "C"%string; larry_unflatten y) (make (Nda DInt (Arr [2; 2] [VInt 1%Z; VInt 2%Z; VInt 3%Z; VInt 4%Z])) None)) = true.
Proof. by vm_compute. Qed.
(** la/tests/deflarry_test.py:2943 *)
Example deflarry__Test_alignment__test_unflatten_4 :
  (labels_same (y ← y ← make (Nda DInt (Arr [2; 2] [VInt 1%Z; VInt 2%Z; VInt 3%Z; VInt 4%Z])) None; larry_flatten y "F"%string; larry_unflatten y) (make (Nda DInt (Arr [2; 2] [VInt 1%Z; VInt 2%Z; VInt 3%Z; VInt 4%Z])) None)) &&
  (xs_near (y ← y ← make (Nda DInt (Arr [2; 2] [VInt 1%Z; VInt 2%Z; VInt 3%Z; VInt 4%Z])) None; larry_flatten y "F"%string; larry_unflatten y) (make (Nda DInt (Arr [2; 2] [VInt 1%Z; VInt 2%Z; VInt 3%Z; VInt 4%Z])) None)) = true.
Proof. by vm_compute. Qed.
(** la/tests/deflarry_test.py:2952 *)
Example deflarry__Test_alignment__test_sortaxis_1 :
  (larry_same (y ← make (Nda DInt (Arr [2; 2] [VInt 4%Z; VInt 3%Z; VInt 2%Z; VInt 1%Z])) (Some [[LStr "b"%string; LStr "a"%string]; [LStr "d"%string; LStr "c"%string]]); sortaxis y None false) (make (Nda DInt (Arr [2; 2] [VInt 1%Z; VInt 2%Z; VInt 3%Z; VInt 4%Z])) (Some [[LStr "a"%string; LStr "b"%string]; [LStr "c"%string; LStr "d"%string]]))) = true.
Proof. by vm_compute. Qed.
(** la/tests/deflarry_test.py:2959 *)
Example deflarry__Test_alignment__test_sortaxis_2 :
  (larry_same (y ← make (Nda DInt (Arr [2; 2] [VInt 4%Z; VInt 3%Z; VInt 2%Z; VInt 1%Z])) (Some [[LStr "b"%string; LStr "a"%string]; [LStr "d"%string; LStr "c"%string]]); sortaxis y None true) (make (Nda DInt (Arr [2; 2] [VInt 4%Z; VInt 3%Z; VInt 2%Z; VInt 1%Z])) (Some [[LStr "b"%string; LStr "a"%string]; [LStr "d"%string; LStr "c"%string]]))) = true.
Proof. by vm_compute. Qed.
(** la/tests/deflarry_test.py:2966 *)
Example deflarry__Test_alignment__test_sortaxis_3 :
  (larry_same (y ← make (Nda DInt (Arr [2; 2] [VInt 4%Z; VInt 3%Z; VInt 2%Z; VInt 1%Z])) (Some [[LStr "b"%string; LStr "a"%string]; [LStr "d"%string; LStr "c"%string]]); sortaxis y (Some 0%Z) false) (make (Nda DInt (Arr [2; 2] [VInt 2%Z; VInt 1%Z; VInt 4%Z; VInt 3%Z])) (Some [[LStr "a"%string; LStr "b"%string]; [LStr "d"%string; LStr "c"%string]]))) = true.
Proof. by vm_compute. Qed.
(** la/tests/deflarry_test.py:2973 *)
Example deflarry__Test_alignment__test_sortaxis_4 :
  (larry_same (y ← make (Nda DInt (Arr [2; 2] [VInt 4%Z; VInt 3%Z; VInt 2%Z; VInt 1%Z])) (Some [[LStr "b"%string; LStr "a"%string]; [LStr "d"%string; LStr "c"%string]]); sortaxis y (Some 1%Z) false) (make (Nda DInt (Arr [2; 2] [VInt 3%Z; VInt 4%Z; VInt 1%Z; VInt 2%Z])) (Some [[LStr "b"%string; LStr "a"%string]; [LStr "c"%string; LStr "d"%string]]))) = true.
Proof. by vm_compute. Qed.
(** la/tests/deflarry_test.py:2980 *)
Example deflarry__Test_alignment__test_sortaxis_5 :
  (larry_same (y ← make (Nda DInt (Arr [1; 2] [VInt 2%Z; VInt 1%Z])) (Some [[LInt 9%Z]; [LStr "b"%string; LStr "a"%string]]); sortaxis y None false) (make (Nda DInt (Arr [1; 2] [VInt 1%Z; VInt 2%Z])) (Some [[LInt 9%Z]; [LStr "a"%string; LStr "b"%string]]))) = true.
Proof. by vm_compute. Qed.
(** la/tests/deflarry_test.py:2988 *)
Example deflarry__Test_alignment__test_sortaxis_6 :
  (larry_same (y ← make (Nda DInt (Arr [1] [VInt 0%Z])) None; sortaxis y None false) (make (Nda DInt (Arr [1] [VInt 0%Z])) None)) = true.
Proof. by vm_compute. Qed.
(** la/tests/deflarry_test.py:2996 *)
Example deflarry__Test_alignment__test_sortaxis_7 :
  (larry_same (y ← make (Nda DInt (Arr [2; 2] [VInt 1%Z; VInt 1%Z; VInt 1%Z; VInt 1%Z])) None; sortaxis y None false) (make (Nda DInt (Arr [2; 2] [VInt 1%Z; VInt 1%Z; VInt 1%Z; VInt 1%Z])) None)) = true.
Proof. by vm_compute. Qed.
(** la/tests/deflarry_test.py:3004 *)
Example deflarry__Test_alignment__test_flipaxis_1 :
  (larry_same (y ← make (Nda DInt (Arr [2; 2] [VInt 1%Z; VInt 2%Z; VInt 3%Z; VInt 4%Z])) (Some [[LStr "a"%string; LStr "b"%string]; [LStr "c"%string; LStr "d"%string]]); flipaxis y None) (make (Nda DInt (Arr [2; 2] [VInt 4%Z; VInt 3%Z; VInt 2%Z; VInt 1%Z])) (Some [[LStr "b"%string; LStr "a"%string]; [LStr "d"%string; LStr "c"%string]]))) = true.
Proof. by vm_compute. Qed.
(** la/tests/deflarry_test.py:3011 *)
Example deflarry__Test_alignment__test_flipaxis_2 :
  (larry_same (y ← make (Nda DInt (Arr [2; 2] [VInt 1%Z; VInt 2%Z; VInt 3%Z; VInt 4%Z])) (Some [[LStr "a"%string; LStr "b"%string]; [LStr "c"%string; LStr "d"%string]]); flipaxis y None) (make (Nda DInt (Arr [2; 2] [VInt 4%Z; VInt 3%Z; VInt 2%Z; VInt 1%Z])) (Some [[LStr "b"%string; LStr "a"%string]; [LStr "d"%string; LStr "c"%string]]))) = true.
Proof. by vm_compute. Qed.
(** la/tests/deflarry_test.py:3018 *)
Example deflarry__Test_alignment__test_flipaxis_3 :
  (larry_same (y ← y ← make (Nda DInt (Arr [2; 2] [VInt 1%Z; VInt 2%Z; VInt 3%Z; VInt 4%Z])) (Some [[LStr "a"%string; LStr "b"%string]; [LStr "c"%string; LStr "d"%string]]); flipaxis y (Some 0%Z); flipaxis y (Some 1%Z)) (make (Nda DInt (Arr [2; 2] [VInt 4%Z; VInt 3%Z; VInt 2%Z; VInt 1%Z])) (Some [[LStr "b"%string; LStr "a"%string]; [LStr "d"%string; LStr "c"%string]]))) = true.
Proof. by vm_compute. Qed.
(** la/tests/deflarry_test.py:3025 *)
Example deflarry__Test_alignment__test_flipaxis_4 :
  (larry_same (y ← make (Nda DInt (Arr [2; 2] [VInt 1%Z; VInt 2%Z; VInt 3%Z; VInt 4%Z])) (Some [[LStr "a"%string; LStr "b"%string]; [LStr "c"%string; LStr "d"%string]]); flipaxis y (Some 0%Z)) (make (Nda DInt (Arr [2; 2] [VInt 3%Z; VInt 4%Z; VInt 1%Z; VInt 2%Z])) (Some [[LStr "b"%string; LStr "a"%string]; [LStr "c"%string; LStr "d"%string]]))) = true.
Proof. by vm_compute. Qed.
(** la/tests/deflarry_test.py:3032 *)
Example deflarry__Test_alignment__test_insertaxis_1 :
  (larry_same (y ← make (Nda DInt (Arr [2] [VInt 1%Z; VInt 2%Z])) None; insertaxis y (Some 0%Z) (LStr "new"%string)) (make (Nda DInt (Arr [1; 2] [VInt 1%Z; VInt 2%Z])) (Some [[LStr "new"%string]; [LInt 0%Z; LInt 1%Z]]))) = true.
Proof. by vm_compute. Qed.
(** la/tests/deflarry_test.py:3039 *)
Example deflarry__Test_alignment__test_insertaxis_2 :
  (larry_same (y ← make (Nda DInt (Arr [2] [VInt 1%Z; VInt 2%Z])) None; insertaxis y (Some 1%Z) (LStr "new"%string)) (make (Nda DInt (Arr [2; 1] [VInt 1%Z; VInt 2%Z])) (Some [[LInt 0%Z; LInt 1%Z]; [LStr "new"%string]]))) = true.
Proof. by vm_compute. Qed.
(** la/tests/deflarry_test.py:3046 *)
Example deflarry__Test_alignment__test_insertaxis_3 :
  (larry_same (y ← make (Nda DInt (Arr [2] [VInt 1%Z; VInt 2%Z])) None; insertaxis y (Some (-2)%Z) (LStr "new"%string)) (make (Nda DInt (Arr [1; 2] [VInt 1%Z; VInt 2%Z])) (Some [[LStr "new"%string]; [LInt 0%Z; LInt 1%Z]]))) = true.
Proof. by vm_compute. Qed.
(** la/tests/deflarry_test.py:3053 *)
Example deflarry__Test_alignment__test_insertaxis_4 :
  (larry_same (y ← make (Nda DInt (Arr [2] [VInt 1%Z; VInt 2%Z])) None; insertaxis y (Some (-1)%Z) (LStr "new"%string)) (make (Nda DInt (Arr [2; 1] [VInt 1%Z; VInt 2%Z])) (Some [[LInt 0%Z; LInt 1%Z]; [LStr "new"%string]]))) = true.
Proof. by vm_compute. Qed.
(** la/tests/deflarry_test.py:3191 *)
Example deflarry__Test_properties_01__test_11 :
  (xs_near (make (Nda DFloat (Arr [3; 2] [VFloat (num_of_Z 1%Z); VFloat (NaN); VFloat (num_of_Z 1%Z); VFloat (num_of_Z 1%Z); VFloat (num_of_Z 1%Z); VFloat (num_of_Z 1%Z)])) None) (make (Nda DFloat (Arr [3; 2] [VFloat (num_of_Z 1%Z); VFloat (NaN); VFloat (num_of_Z 1%Z); VFloat (num_of_Z 1%Z); VFloat (num_of_Z 1%Z); VFloat (num_of_Z 1%Z)])) None)) = true.
Proof. by vm_compute. Qed.
(** la/tests/deflarry_test.py:3204 *)
Example deflarry__Test_merge__test_merge1 :
  (xs_near (make (Nda DFloat (Arr [3; 5] [VFloat (num_of_Z 2%Z); VFloat (num_of_Z 2%Z); VFloat (num_of_Z 3%Z); VFloat (num_of_Z 1%Z); VFloat (num_of_Z 2%Z); VFloat (num_of_Z 3%Z); VFloat (num_of_Z 2%Z); VFloat (num_of_Z 2%Z); VFloat (num_of_Z 1%Z); VFloat (num_of_Z 3%Z); VFloat (num_of_Z 1%Z); VFloat (num_of_Z 1%Z); VFloat (num_of_Z 1%Z); VFloat (num_of_Z 1%Z); VFloat (num_of_Z 1%Z)])) (Some [[LInt 1%Z; LInt 2%Z; LInt 3%Z]; [LInt 1%Z; LInt 2%Z; LInt 3%Z; LInt 4%Z; LInt 9%Z]])) (y ← make (Nda DFloat (Arr [3; 4] [VFloat (num_of_Z 2%Z); VFloat (num_of_Z 2%Z); VFloat (num_of_Z 3%Z); VFloat (num_of_Z 1%Z); VFloat (num_of_Z 3%Z); VFloat (num_of_Z 2%Z); VFloat (num_of_Z 2%Z); VFloat (num_of_Z 1%Z); VFloat (num_of_Z 1%Z); VFloat (num_of_Z 1%Z); VFloat (num_of_Z 1%Z); VFloat (num_of_Z 1%Z)])) (Some [[LInt 1%Z; LInt 2%Z; LInt 3%Z]; [LInt 1%Z; LInt 2%Z; LInt 3%Z; LInt 4%Z]]); z ← make (Nda DFloat (Arr [3; 4] [VFloat (num_of_Z 2%Z); VFloat (num_of_Z 2%Z); VFloat (num_of_Z 3%Z); VFloat (num_of_Z 1%Z); VFloat (num_of_Z 3%Z); VFloat (num_of_Z 2%Z); VFloat (num_of_Z 2%Z); VFloat (num_of_Z 1%Z); VFloat (num_of_Z 1%Z); VFloat (num_of_Z 1%Z); VFloat (num_of_Z 1%Z); VFloat (num_of_Z 1%Z)])) (Some [[LInt 1%Z; LInt 2%Z; LInt 3%Z]; [LInt 9%Z; LInt 2%Z; LInt 3%Z; LInt 4%Z]]); larry_merge y z true)) &&
  (labels_same (make (Nda DFloat (Arr [3; 5] [VFloat (num_of_Z 2%Z); VFloat (num_of_Z 2%Z); VFloat (num_of_Z 3%Z); VFloat (num_of_Z 1%Z); VFloat (num_of_Z 2%Z); VFloat (num_of_Z 3%Z); VFloat (num_of_Z 2%Z); VFloat (num_of_Z 2%Z); VFloat (num_of_Z 1%Z); VFloat (num_of_Z 3%Z); VFloat (num_of_Z 1%Z); VFloat (num_of_Z 1%Z); VFloat (num_of_Z 1%Z); VFloat (num_of_Z 1%Z); VFloat (num_of_Z 1%Z)])) (Some [[LInt 1%Z; LInt 2%Z; LInt 3%Z]; [LInt 1%Z; LInt 2%Z; LInt 3%Z; LInt 4%Z; LInt 9%Z]])) (y ← make (Nda DFloat (Arr [3; 4] [VFloat (num_of_Z 2%Z); VFloat (num_of_Z 2%Z); VFloat (num_of_Z 3%Z); VFloat (num_of_Z 1%Z); VFloat (num_of_Z 3%Z); VFloat (num_of_Z 2%Z); VFloat (num_of_Z 2%Z); VFloat (num_of_Z 1%Z); VFloat (num_of_Z 1%Z); VFloat (num_of_Z 1%Z); VFloat (num_of_Z 1%Z); VFloat (num_of_Z 1%Z)])) (Some [[LInt 1%Z; LInt 2%Z; LInt 3%Z]; [LInt 1%Z; LInt 2%Z; LInt 3%Z; LInt 4%Z]]); z ← make (Nda DFloat (Arr [3; 4] [VFloat (num_of_Z 2%Z); VFloat (num_of_Z 2%Z); VFloat (num_of_Z 3%Z); VFloat (num_of_Z 1%Z); VFloat (num_of_Z 3%Z); VFloat (num_of_Z 2%Z); VFloat (num_of_Z 2%Z); VFloat (num_of_Z 1%Z); VFloat (num_of_Z 1%Z); VFloat (num_of_Z 1%Z); VFloat (num_of_Z 1%Z); VFloat (num_of_Z 1%Z)])) (Some [[LInt 1%Z; LInt 2%Z; LInt 3%Z]; [LInt 9%Z; LInt 2%Z; LInt 3%Z; LInt 4%Z]]); larry_merge y z true)) &&
  (raises (y ← make (Nda DFloat (Arr [3; 4] [VFloat (num_of_Z 2%Z); VFloat (num_of_Z 2%Z); VFloat (num_of_Z 3%Z); VFloat (num_of_Z 1%Z); VFloat (num_of_Z 3%Z); VFloat (num_of_Z 2%Z); VFloat (num_of_Z 2%Z); VFloat (num_of_Z 1%Z); VFloat (num_of_Z 1%Z); VFloat (num_of_Z 1%Z); VFloat (num_of_Z 1%Z); VFloat (num_of_Z 1%Z)])) (Some [[LInt 1%Z; LInt 2%Z; LInt 3%Z]; [LInt 1%Z; LInt 2%Z; LInt 3%Z; LInt 4%Z]]); z ← make (Nda DFloat (Arr [3; 4] [VFloat (num_of_Z 2%Z); VFloat (num_of_Z 2%Z); VFloat (num_of_Z 3%Z); VFloat (num_of_Z 1%Z); VFloat (num_of_Z 3%Z); VFloat (num_of_Z 2%Z); VFloat (num_of_Z 2%Z); VFloat (num_of_Z 1%Z); VFloat (num_of_Z 1%Z); VFloat (num_of_Z 1%Z); VFloat (num_of_Z 1%Z); VFloat (num_of_Z 1%Z)])) (Some [[LInt 1%Z; LInt 2%Z; LInt 3%Z]; [LInt 9%Z; LInt 2%Z; LInt 3%Z; LInt 4%Z]]); larry_merge y z false) ValueError) = true.
Proof. by vm_compute. Qed.
(** la/tests/deflarry_test.py:3226 *)
Example deflarry__Test_merge__test_merge2 :
  (xs_near (make (Nda DFloat (Arr [3; 5] [VFloat (num_of_Z 2%Z); VFloat (num_of_Z 2%Z); VFloat (num_of_Z 3%Z); VFloat (num_of_Z 1%Z); VFloat (num_of_Z 2%Z); VFloat (num_of_Z 3%Z); VFloat (num_of_Z 2%Z); VFloat (num_of_Z 2%Z); VFloat (num_of_Z 1%Z); VFloat (num_of_Z 3%Z); VFloat (num_of_Z 1%Z); VFloat (num_of_Z 1%Z); VFloat (num_of_Z 1%Z); VFloat (num_of_Z 6%Z); VFloat (num_of_Z 1%Z)])) (Some [[LInt 1%Z; LInt 2%Z; LInt 3%Z]; [LInt 1%Z; LInt 2%Z; LInt 3%Z; LInt 4%Z; LInt 9%Z]])) (y ← make (Nda DFloat (Arr [3; 4] [VFloat (num_of_Z 2%Z); VFloat (num_of_Z 2%Z); VFloat (NaN); VFloat (NaN); VFloat (num_of_Z 3%Z); VFloat (num_of_Z 2%Z); VFloat (NaN); VFloat (NaN); VFloat (num_of_Z 1%Z); VFloat (num_of_Z 1%Z); VFloat (NaN); VFloat (NaN)])) (Some [[LInt 1%Z; LInt 2%Z; LInt 3%Z]; [LInt 1%Z; LInt 2%Z; LInt 3%Z; LInt 4%Z]]); z ← make (Nda DFloat (Arr [3; 4] [VFloat (num_of_Z 2%Z); VFloat (NaN); VFloat (num_of_Z 3%Z); VFloat (num_of_Z 1%Z); VFloat (num_of_Z 3%Z); VFloat (NaN); VFloat (num_of_Z 2%Z); VFloat (num_of_Z 1%Z); VFloat (num_of_Z 1%Z); VFloat (NaN); VFloat (num_of_Z 1%Z); VFloat (num_of_Z 6%Z)])) (Some [[LInt 1%Z; LInt 2%Z; LInt 3%Z]; [LInt 9%Z; LInt 2%Z; LInt 3%Z; LInt 4%Z]]); larry_merge y z false)) &&
  (labels_same (make (Nda DFloat (Arr [3; 5] [VFloat (num_of_Z 2%Z); VFloat (num_of_Z 2%Z); VFloat (num_of_Z 3%Z); VFloat (num_of_Z 1%Z); VFloat (num_of_Z 2%Z); VFloat (num_of_Z 3%Z); VFloat (num_of_Z 2%Z); VFloat (num_of_Z 2%Z); VFloat (num_of_Z 1%Z); VFloat (num_of_Z 3%Z); VFloat (num_of_Z 1%Z); VFloat (num_of_Z 1%Z); VFloat (num_of_Z 1%Z); VFloat (num_of_Z 6%Z); VFloat (num_of_Z 1%Z)])) (Some [[LInt 1%Z; LInt 2%Z; LInt 3%Z]; [LInt 1%Z; LInt 2%Z; LInt 3%Z; LInt 4%Z; LInt 9%Z]])) (y ← make (Nda DFloat (Arr [3; 4] [VFloat (num_of_Z 2%Z); VFloat (num_of_Z 2%Z); VFloat (NaN); VFloat (NaN); VFloat (num_of_Z 3%Z); VFloat (num_of_Z 2%Z); VFloat (NaN); VFloat (NaN); VFloat (num_of_Z 1%Z); VFloat (num_of_Z 1%Z); VFloat (NaN); VFloat (NaN)])) (Some [[LInt 1%Z; LInt 2%Z; LInt 3%Z]; [LInt 1%Z; LInt 2%Z; LInt 3%Z; LInt 4%Z]]); z ← make (Nda DFloat (Arr [3; 4] [VFloat (num_of_Z 2%Z); VFloat (NaN); VFloat (num_of_Z 3%Z); VFloat (num_of_Z 1%Z); VFloat (num_of_Z 3%Z); VFloat (NaN); VFloat (num_of_Z 2%Z); VFloat (num_of_Z 1%Z); VFloat (num_of_Z 1%Z); VFloat (NaN); VFloat (num_of_Z 1%Z); VFloat (num_of_Z 6%Z)])) (Some [[LInt 1%Z; LInt 2%Z; LInt 3%Z]; [LInt 9%Z; LInt 2%Z; LInt 3%Z; LInt 4%Z]]); larry_merge y z false)) = true.
Proof. by vm_compute. Qed.
(** la/tests/deflarry_test.py:3247 *)
Example deflarry__Test_merge__test_merge3 :
  (xs_near (make (Nda DFloat (Arr [3; 5] [VFloat (num_of_Z 2%Z); VFloat (num_of_Z 2%Z); VFloat (num_of_Z 3%Z); VFloat (num_of_Z 1%Z); VFloat (num_of_Z 2%Z); VFloat (num_of_Z 3%Z); VFloat (num_of_Z 2%Z); VFloat (num_of_Z 2%Z); VFloat (num_of_Z 1%Z); VFloat (num_of_Z 3%Z); VFloat (NaN); VFloat (NaN); VFloat (num_of_Z 1%Z); VFloat (num_of_Z 6%Z); VFloat (num_of_Z 1%Z)])) (Some [[LInt 1%Z; LInt 2%Z; LInt 3%Z]; [LInt 1%Z; LInt 2%Z; LInt 3%Z; LInt 4%Z; LInt 9%Z]])) (y ← make (Nda DFloat (Arr [3; 4] [VFloat (num_of_Z 2%Z); VFloat (num_of_Z 2%Z); VFloat (num_of_Z 3%Z); VFloat (num_of_Z 1%Z); VFloat (num_of_Z 3%Z); VFloat (num_of_Z 2%Z); VFloat (num_of_Z 2%Z); VFloat (num_of_Z 1%Z); VFloat (NaN); VFloat (NaN); VFloat (NaN); VFloat (NaN)])) (Some [[LInt 1%Z; LInt 2%Z; LInt 3%Z]; [LInt 1%Z; LInt 2%Z; LInt 3%Z; LInt 4%Z]]); z ← make (Nda DFloat (Arr [3; 4] [VFloat (num_of_Z 2%Z); VFloat (NaN); VFloat (num_of_Z 3%Z); VFloat (num_of_Z 1%Z); VFloat (num_of_Z 3%Z); VFloat (NaN); VFloat (num_of_Z 2%Z); VFloat (num_of_Z 1%Z); VFloat (num_of_Z 1%Z); VFloat (NaN); VFloat (num_of_Z 1%Z); VFloat (num_of_Z 6%Z)])) (Some [[LInt 1%Z; LInt 2%Z; LInt 3%Z]; [LInt 9%Z; LInt 2%Z; LInt 3%Z; LInt 4%Z]]); larry_merge y z true)) &&
  (labels_same (make (Nda DFloat (Arr [3; 5] [VFloat (num_of_Z 2%Z); VFloat (num_of_Z 2%Z); VFloat (num_of_Z 3%Z); VFloat (num_of_Z 1%Z); VFloat (num_of_Z 2%Z); VFloat (num_of_Z 3%Z); VFloat (num_of_Z 2%Z); VFloat (num_of_Z 2%Z); VFloat (num_of_Z 1%Z); VFloat (num_of_Z 3%Z); VFloat (NaN); VFloat (NaN); VFloat (num_of_Z 1%Z); VFloat (num_of_Z 6%Z); VFloat (num_of_Z 1%Z)])) (Some [[LInt 1%Z; LInt 2%Z; LInt 3%Z]; [LInt 1%Z; LInt 2%Z; LInt 3%Z; LInt 4%Z; LInt 9%Z]])) (y ← make (Nda DFloat (Arr [3; 4] [VFloat (num_of_Z 2%Z); VFloat (num_of_Z 2%Z); VFloat (num_of_Z 3%Z); VFloat (num_of_Z 1%Z); VFloat (num_of_Z 3%Z); VFloat (num_of_Z 2%Z); VFloat (num_of_Z 2%Z); VFloat (num_of_Z 1%Z); VFloat (NaN); VFloat (NaN); VFloat (NaN); VFloat (NaN)])) (Some [[LInt 1%Z; LInt 2%Z; LInt 3%Z]; [LInt 1%Z; LInt 2%Z; LInt 3%Z; LInt 4%Z]]); z ← make (Nda DFloat (Arr [3; 4] [VFloat (num_of_Z 2%Z); VFloat (NaN); VFloat (num_of_Z 3%Z); VFloat (num_of_Z 1%Z); VFloat (num_of_Z 3%Z); VFloat (NaN); VFloat (num_of_Z 2%Z); VFloat (num_of_Z 1%Z); VFloat (num_of_Z 1%Z); VFloat (NaN); VFloat (num_of_Z 1%Z); VFloat (num_of_Z 6%Z)])) (Some [[LInt 1%Z; LInt 2%Z; LInt 3%Z]; [LInt 9%Z; LInt 2%Z; LInt 3%Z; LInt 4%Z]]); larry_merge y z true)) = true.
Proof. by vm_compute. Qed.
(** la/tests/deflarry_test.py:3268 *)
Example deflarry__Test_merge__test_merge4 :
  (xs_near (make (Nda DFloat (Arr [3; 4] [VFloat (num_of_Z 2%Z); VFloat (num_of_Z 2%Z); VFloat (num_of_Z 3%Z); VFloat (num_of_Z 1%Z); VFloat (num_of_Z 3%Z); VFloat (num_of_Z 2%Z); VFloat (num_of_Z 2%Z); VFloat (num_of_Z 1%Z); VFloat (num_of_Z 1%Z); VFloat (num_of_Z 1%Z); VFloat (num_of_Z 1%Z); VFloat (num_of_Z 6%Z)])) (Some [[LInt 1%Z; LInt 2%Z; LInt 3%Z]; [LInt 1%Z; LInt 2%Z; LInt 3%Z; LInt 4%Z]])) (y ← make (Nda DFloat (Arr [3; 4] [VFloat (num_of_Z 2%Z); VFloat (num_of_Z 2%Z); VFloat (num_of_Z 3%Z); VFloat (num_of_Z 1%Z); VFloat (num_of_Z 3%Z); VFloat (num_of_Z 2%Z); VFloat (num_of_Z 2%Z); VFloat (num_of_Z 1%Z); VFloat (NaN); VFloat (NaN); VFloat (NaN); VFloat (NaN)])) (Some [[LInt 1%Z; LInt 2%Z; LInt 3%Z]; [LInt 1%Z; LInt 2%Z; LInt 3%Z; LInt 4%Z]]); z ← make (Nda DFloat (Arr [1; 4] [VFloat (num_of_Z 1%Z); VFloat (num_of_Z 1%Z); VFloat (num_of_Z 1%Z); VFloat (num_of_Z 6%Z)])) (Some [[LInt 3%Z]; [LInt 1%Z; LInt 2%Z; LInt 3%Z; LInt 4%Z]]); larry_merge y z true)) &&
  (labels_same (make (Nda DFloat (Arr [3; 4] [VFloat (num_of_Z 2%Z); VFloat (num_of_Z 2%Z); VFloat (num_of_Z 3%Z); VFloat (num_of_Z 1%Z); VFloat (num_of_Z 3%Z); VFloat (num_of_Z 2%Z); VFloat (num_of_Z 2%Z); VFloat (num_of_Z 1%Z); VFloat (num_of_Z 1%Z); VFloat (num_of_Z 1%Z); VFloat (num_of_Z 1%Z); VFloat (num_of_Z 6%Z)])) (Some [[LInt 1%Z; LInt 2%Z; LInt 3%Z]; [LInt 1%Z; LInt 2%Z; LInt 3%Z; LInt 4%Z]])) (y ← make (Nda DFloat (Arr [3; 4] [VFloat (num_of_Z 2%Z); VFloat (num_of_Z 2%Z); VFloat (num_of_Z 3%Z); VFloat (num_of_Z 1%Z); VFloat (num_of_Z 3%Z); VFloat (num_of_Z 2%Z); VFloat (num_of_Z 2%Z); VFloat (num_of_Z 1%Z); VFloat (NaN); VFloat (NaN); VFloat (NaN); VFloat (NaN)])) (Some [[LInt 1%Z; LInt 2%Z; LInt 3%Z]; [LInt 1%Z; LInt 2%Z; LInt 3%Z; LInt 4%Z]]); z ← make (Nda DFloat (Arr [1; 4] [VFloat (num_of_Z 1%Z); VFloat (num_of_Z 1%Z); VFloat (num_of_Z 1%Z); VFloat (num_of_Z 6%Z)])) (Some [[LInt 3%Z]; [LInt 1%Z; LInt 2%Z; LInt 3%Z; LInt 4%Z]]); larry_merge y z true)) = true.
Proof. by vm_compute. Qed.
(** la/tests/deflarry_test.py:3287 *)
Example deflarry__Test_merge__test_merge5 :
  (xs_near (make (Nda DFloat (Arr [4; 4] [VFloat (num_of_Z 2%Z); VFloat (num_of_Z 2%Z); VFloat (num_of_Z 3%Z); VFloat (num_of_Z 1%Z); VFloat (num_of_Z 3%Z); VFloat (num_of_Z 2%Z); VFloat (num_of_Z 2%Z); VFloat (num_of_Z 1%Z); VFloat (num_of_Z 1%Z); VFloat (num_of_Z 1%Z); VFloat (num_of_Z 1%Z); VFloat (num_of_Z 6%Z); VFloat (num_of_Z 10%Z); VFloat (num_of_Z 10%Z); VFloat (num_of_Z 10%Z); VFloat (num_of_Z 60%Z)])) (Some [[LInt 1%Z; LInt 2%Z; LInt 3%Z; LInt 4%Z]; [LInt 1%Z; LInt 2%Z; LInt 3%Z; LInt 4%Z]])) (y ← make (Nda DFloat (Arr [3; 4] [VFloat (num_of_Z 2%Z); VFloat (num_of_Z 2%Z); VFloat (num_of_Z 3%Z); VFloat (num_of_Z 1%Z); VFloat (num_of_Z 3%Z); VFloat (num_of_Z 2%Z); VFloat (num_of_Z 2%Z); VFloat (num_of_Z 1%Z); VFloat (num_of_Z 1%Z); VFloat (num_of_Z 1%Z); VFloat (num_of_Z 1%Z); VFloat (num_of_Z 6%Z)])) (Some [[LInt 1%Z; LInt 2%Z; LInt 3%Z]; [LInt 1%Z; LInt 2%Z; LInt 3%Z; LInt 4%Z]]); z ← make (Nda DFloat (Arr [1; 4] [VFloat (num_of_Z 10%Z); VFloat (num_of_Z 10%Z); VFloat (num_of_Z 10%Z); VFloat (num_of_Z 60%Z)])) (Some [[LInt 4%Z]; [LInt 1%Z; LInt 2%Z; LInt 3%Z; LInt 4%Z]]); larry_merge y z true)) &&
  (labels_same (make (Nda DFloat (Arr [4; 4] [VFloat (num_of_Z 2%Z); VFloat (num_of_Z 2%Z); VFloat (num_of_Z 3%Z); VFloat (num_of_Z 1%Z); VFloat (num_of_Z 3%Z); VFloat (num_of_Z 2%Z); VFloat (num_of_Z 2%Z); VFloat (num_of_Z 1%Z); VFloat (num_of_Z 1%Z); VFloat (num_of_Z 1%Z); VFloat (num_of_Z 1%Z); VFloat (num_of_Z 6%Z); VFloat (num_of_Z 10%Z); VFloat (num_of_Z 10%Z); VFloat (num_of_Z 10%Z); VFloat (num_of_Z 60%Z)])) (Some [[LInt 1%Z; LInt 2%Z; LInt 3%Z; LInt 4%Z]; [LInt 1%Z; LInt 2%Z; LInt 3%Z; LInt 4%Z]])) (y ← make (Nda DFloat (Arr [3; 4] [VFloat (num_of_Z 2%Z); VFloat (num_of_Z 2%Z); VFloat (num_of_Z 3%Z); VFloat (num_of_Z 1%Z); VFloat (num_of_Z 3%Z); VFloat (num_of_Z 2%Z); VFloat (num_of_Z 2%Z); VFloat (num_of_Z 1%Z); VFloat (num_of_Z 1%Z); VFloat (num_of_Z 1%Z); VFloat (num_of_Z 1%Z); VFloat (num_of_Z 6%Z)])) (Some [[LInt 1%Z; LInt 2%Z; LInt 3%Z]; [LInt 1%Z; LInt 2%Z; LInt 3%Z; LInt 4%Z]]); z ← make (Nda DFloat (Arr [1; 4] [VFloat (num_of_Z 10%Z); VFloat (num_of_Z 10%Z); VFloat (num_of_Z 10%Z); VFloat (num_of_Z 60%Z)])) (Some [[LInt 4%Z]; [LInt 1%Z; LInt 2%Z; LInt 3%Z; LInt 4%Z]]); larry_merge y z true)) = true.
Proof. by vm_compute. Qed.
(** la/tests/deflarry_test.py:3307 *)
Example deflarry__Test_merge__test_merge6 :
  (xs_near (make (Nda DFloat (Arr [3; 6] [VFloat (num_of_Z 2%Z); VFloat (num_of_Z 2%Z); VFloat (num_of_Z 3%Z); VFloat (num_of_Z 1%Z); VFloat (num_of_Z 20%Z); VFloat (num_of_Z 10%Z); VFloat (num_of_Z 3%Z); VFloat (num_of_Z 2%Z); VFloat (num_of_Z 2%Z); VFloat (num_of_Z 1%Z); VFloat (num_of_Z 10%Z); VFloat (num_of_Z 60%Z); VFloat (num_of_Z 1%Z); VFloat (num_of_Z 1%Z); VFloat (num_of_Z 1%Z); VFloat (num_of_Z 6%Z); VFloat (NaN); VFloat (NaN)])) (Some [[LInt 1%Z; LInt 2%Z; LInt 3%Z]; [LInt 1%Z; LInt 2%Z; LInt 3%Z; LInt 4%Z; LInt 5%Z; LInt 6%Z]])) (y ← make (Nda DFloat (Arr [3; 4] [VFloat (num_of_Z 2%Z); VFloat (num_of_Z 2%Z); VFloat (num_of_Z 3%Z); VFloat (num_of_Z 1%Z); VFloat (num_of_Z 3%Z); VFloat (num_of_Z 2%Z); VFloat (num_of_Z 2%Z); VFloat (num_of_Z 1%Z); VFloat (num_of_Z 1%Z); VFloat (num_of_Z 1%Z); VFloat (num_of_Z 1%Z); VFloat (num_of_Z 6%Z)])) (Some [[LInt 1%Z; LInt 2%Z; LInt 3%Z]; [LInt 1%Z; LInt 2%Z; LInt 3%Z; LInt 4%Z]]); z ← make (Nda DFloat (Arr [2; 2] [VFloat (num_of_Z 20%Z); VFloat (num_of_Z 10%Z); VFloat (num_of_Z 10%Z); VFloat (num_of_Z 60%Z)])) (Some [[LInt 1%Z; LInt 2%Z]; [LInt 5%Z; LInt 6%Z]]); larry_merge y z false)) &&
  (labels_same (make (Nda DFloat (Arr [3; 6] [VFloat (num_of_Z 2%Z); VFloat (num_of_Z 2%Z); VFloat (num_of_Z 3%Z); VFloat (num_of_Z 1%Z); VFloat (num_of_Z 20%Z); VFloat (num_of_Z 10%Z); VFloat (num_of_Z 3%Z); VFloat (num_of_Z 2%Z); VFloat (num_of_Z 2%Z); VFloat (num_of_Z 1%Z); VFloat (num_of_Z 10%Z); VFloat (num_of_Z 60%Z); VFloat (num_of_Z 1%Z); VFloat (num_of_Z 1%Z); VFloat (num_of_Z 1%Z); VFloat (num_of_Z 6%Z); VFloat (NaN); VFloat (NaN)])) (Some [[LInt 1%Z; LInt 2%Z; LInt 3%Z]; [LInt 1%Z; LInt 2%Z; LInt 3%Z; LInt 4%Z; LInt 5%Z; LInt 6%Z]])) (y ← make (Nda DFloat (Arr [3; 4] [VFloat (num_of_Z 2%Z); VFloat (num_of_Z 2%Z); VFloat (num_of_Z 3%Z); VFloat (num_of_Z 1%Z); VFloat (num_of_Z 3%Z); VFloat (num_of_Z 2%Z); VFloat (num_of_Z 2%Z); VFloat (num_of_Z 1%Z); VFloat (num_of_Z 1%Z); VFloat (num_of_Z 1%Z); VFloat (num_of_Z 1%Z); VFloat (num_of_Z 6%Z)])) (Some [[LInt 1%Z; LInt 2%Z; LInt 3%Z]; [LInt 1%Z; LInt 2%Z; LInt 3%Z; LInt 4%Z]]); z ← make (Nda DFloat (Arr [2; 2] [VFloat (num_of_Z 20%Z); VFloat (num_of_Z 10%Z); VFloat (num_of_Z 10%Z); VFloat (num_of_Z 60%Z)])) (Some [[LInt 1%Z; LInt 2%Z]; [LInt 5%Z; LInt 6%Z]]); larry_merge y z false)) = true.
Proof. by vm_compute. Qed.
(** la/tests/deflarry_test.py:3327 *)
Example deflarry__Test_merge__test_merge7 :
  (xs_near (make (Nda DStr (Arr [2] [VStr "a"%string; VStr "z"%string])) (Some [[LInt 0%Z; LInt 1%Z]])) (y ← make (Nda DStr (Arr [2] [VStr "a"%string; VStr "b"%string])) (Some [[LInt 0%Z; LInt 1%Z]]); z ← make (Nda DStr (Arr [2] [VStr "a"%string; VStr "z"%string])) (Some [[LInt 0%Z; LInt 1%Z]]); larry_merge y z true)) &&
  (labels_same (make (Nda DStr (Arr [2] [VStr "a"%string; VStr "z"%string])) (Some [[LInt 0%Z; LInt 1%Z]])) (y ← make (Nda DStr (Arr [2] [VStr "a"%string; VStr "b"%string])) (Some [[LInt 0%Z; LInt 1%Z]]); z ← make (Nda DStr (Arr [2] [VStr "a"%string; VStr "z"%string])) (Some [[LInt 0%Z; LInt 1%Z]]); larry_merge y z true)) = true.
Proof. by vm_compute. Qed.
(** la/tests/deflarry_test.py:3346 *)
Example deflarry__Test_merge__test_merge9 :
  (xs_near (y ← make (Nda DObj (Arr [1] [VStr "a"%string])) None; z ← make (Nda DObj (Arr [1] [VStr "a"%string])) None; larry_merge y z true) (make (Nda DObj (Arr [1] [VStr "a"%string])) None)) &&
  (labels_same (y ← make (Nda DObj (Arr [1] [VStr "a"%string])) None; z ← make (Nda DObj (Arr [1] [VStr "a"%string])) None; larry_merge y z true) (make (Nda DObj (Arr [1] [VStr "a"%string])) None)) = true.
Proof. by vm_compute. Qed.
(** la/tests/deflarry_test.py:3353 *)
Example deflarry__Test_merge__test_merge10 :
  (larry_same (y ← make (Nda DFloat (Arr [0] [])) None; z ← make (Nda DFloat (Arr [2] [VFloat (num_of_Z 1%Z); VFloat (num_of_Z 2%Z)])) None; larry_merge y z false) (make (Nda DFloat (Arr [2] [VFloat (num_of_Z 1%Z); VFloat (num_of_Z 2%Z)])) None)) = true.
Proof. by vm_compute. Qed.
(** la/tests/deflarry_test.py:3360 *)
Example deflarry__Test_merge__test_merge11 :
  (larry_same (y ← make (Nda DInt (Arr [2] [VInt 1%Z; VInt 2%Z])) None; z ← make (Nda DFloat (Arr [0] [])) None; larry_merge y z false) (make (Nda DInt (Arr [2] [VInt 1%Z; VInt 2%Z])) None)) = true.
Proof. by vm_compute. Qed.
(** la/tests/deflarry_test.py:3367 *)
Example deflarry__Test_merge__test_merge12 :
  (larry_same (y ← make (Nda DFloat (Arr [1; 0] [])) None; z ← make (Nda DFloat (Arr [2; 2] [VFloat (num_of_Z 1%Z); VFloat (num_of_Z 2%Z); VFloat (num_of_Z 1%Z); VFloat (num_of_Z 2%Z)])) None; larry_merge y z false) (make (Nda DFloat (Arr [2; 2] [VFloat (num_of_Z 1%Z); VFloat (num_of_Z 2%Z); VFloat (num_of_Z 1%Z); VFloat (num_of_Z 2%Z)])) None)) = true.
Proof. by vm_compute. Qed.
(** la/tests/deflarry_test.py:3374 *)
Example deflarry__Test_merge__test_merge13 :
  (larry_same (y ← make (Nda DFloat (Arr [2; 2] [VFloat (num_of_Z 1%Z); VFloat (num_of_Z 2%Z); VFloat (num_of_Z 1%Z); VFloat (num_of_Z 2%Z)])) None; z ← make (Nda DFloat (Arr [1; 0] [])) None; larry_merge y z false) (make (Nda DFloat (Arr [2; 2] [VFloat (num_of_Z 1%Z); VFloat (num_of_Z 2%Z); VFloat (num_of_Z 1%Z); VFloat (num_of_Z 2%Z)])) None)) = true.
Proof. by vm_compute. Qed.
(** la/tests/deflarry_test.py:3400 *)
Example deflarry__Test_vacuum__test_vacuum1a :
  (xs_near (y ← make (Nda DFloat (Arr [3; 4] [VFloat (num_of_Z 2%Z); VFloat (NaN); VFloat (num_of_Z 3%Z); VFloat (num_of_Z 1%Z); VFloat (num_of_Z 3%Z); VFloat (NaN); VFloat (num_of_Z 2%Z); VFloat (num_of_Z 1%Z); VFloat (num_of_Z 1%Z); VFloat (NaN); VFloat (num_of_Z 1%Z); VFloat (num_of_Z 1%Z)])) (Some [[LInt 0%Z; LInt 1%Z; LInt 2%Z]; [LStr "A"%string; LStr "B"%string; LStr "C"%string; LStr "D"%string]]); vacuum y AxNone) (make (Nda DFloat (Arr [3; 3] [VFloat (num_of_Z 2%Z); VFloat (num_of_Z 3%Z); VFloat (num_of_Z 1%Z); VFloat (num_of_Z 3%Z); VFloat (num_of_Z 2%Z); VFloat (num_of_Z 1%Z); VFloat (num_of_Z 1%Z); VFloat (num_of_Z 1%Z); VFloat (num_of_Z 1%Z)])) (Some [[LInt 0%Z; LInt 1%Z; LInt 2%Z]; [LStr "A"%string; LStr "C"%string; LStr "D"%string]]))) &&
  (labels_same (y ← make (Nda DFloat (Arr [3; 4] [VFloat (num_of_Z 2%Z); VFloat (NaN); VFloat (num_of_Z 3%Z); VFloat (num_of_Z 1%Z); VFloat (num_of_Z 3%Z); VFloat (NaN); VFloat (num_of_Z 2%Z); VFloat (num_of_Z 1%Z); VFloat (num_of_Z 1%Z); VFloat (NaN); VFloat (num_of_Z 1%Z); VFloat (num_of_Z 1%Z)])) (Some [[LInt 0%Z; LInt 1%Z; LInt 2%Z]; [LStr "A"%string; LStr "B"%string; LStr "C"%string; LStr "D"%string]]); vacuum y AxNone) (make (Nda DFloat (Arr [3; 3] [VFloat (num_of_Z 2%Z); VFloat (num_of_Z 3%Z); VFloat (num_of_Z 1%Z); VFloat (num_of_Z 3%Z); VFloat (num_of_Z 2%Z); VFloat (num_of_Z 1%Z); VFloat (num_of_Z 1%Z); VFloat (num_of_Z 1%Z); VFloat (num_of_Z 1%Z)])) (Some [[LInt 0%Z; LInt 1%Z; LInt 2%Z]; [LStr "A"%string; LStr "C"%string; LStr "D"%string]]))) = true.
Proof. by vm_compute. Qed.
(** la/tests/deflarry_test.py:3411 *)
Example deflarry__Test_vacuum__test_vacuum1b :
  (xs_near (y ← make (Nda DFloat (Arr [3; 4] [VFloat (num_of_Z 2%Z); VFloat (NaN); VFloat (num_of_Z 3%Z); VFloat (num_of_Z 1%Z); VFloat (num_of_Z 3%Z); VFloat (NaN); VFloat (num_of_Z 2%Z); VFloat (num_of_Z 1%Z); VFloat (num_of_Z 1%Z); VFloat (NaN); VFloat (num_of_Z 1%Z); VFloat (num_of_Z 1%Z)])) (Some [[LInt 0%Z; LInt 1%Z; LInt 2%Z]; [LStr "A"%string; LStr "B"%string; LStr "C"%string; LStr "D"%string]]); vacuum y (AxInt 0%Z)) (make (Nda DFloat (Arr [3; 3] [VFloat (num_of_Z 2%Z); VFloat (num_of_Z 3%Z); VFloat (num_of_Z 1%Z); VFloat (num_of_Z 3%Z); VFloat (num_of_Z 2%Z); VFloat (num_of_Z 1%Z); VFloat (num_of_Z 1%Z); VFloat (num_of_Z 1%Z); VFloat (num_of_Z 1%Z)])) (Some [[LInt 0%Z; LInt 1%Z; LInt 2%Z]; [LStr "A"%string; LStr "C"%string; LStr "D"%string]]))) &&
  (labels_same (y ← make (Nda DFloat (Arr [3; 4] [VFloat (num_of_Z 2%Z); VFloat (NaN); VFloat (num_of_Z 3%Z); VFloat (num_of_Z 1%Z); VFloat (num_of_Z 3%Z); VFloat (NaN); VFloat (num_of_Z 2%Z); VFloat (num_of_Z 1%Z); VFloat (num_of_Z 1%Z); VFloat (NaN); VFloat (num_of_Z 1%Z); VFloat (num_of_Z 1%Z)])) (Some [[LInt 0%Z; LInt 1%Z; LInt 2%Z]; [LStr "A"%string; LStr "B"%string; LStr "C"%string; LStr "D"%string]]); vacuum y (AxInt 0%Z)) (make (Nda DFloat (Arr [3; 3] [VFloat (num_of_Z 2%Z); VFloat (num_of_Z 3%Z); VFloat (num_of_Z 1%Z); VFloat (num_of_Z 3%Z); VFloat (num_of_Z 2%Z); VFloat (num_of_Z 1%Z); VFloat (num_of_Z 1%Z); VFloat (num_of_Z 1%Z); VFloat (num_of_Z 1%Z)])) (Some [[LInt 0%Z; LInt 1%Z; LInt 2%Z]; [LStr "A"%string; LStr "C"%string; LStr "D"%string]]))) = true.
Proof. by vm_compute. Qed.
(** la/tests/deflarry_test.py:3422 *)
Example deflarry__Test_vacuum__test_vacuum1c :
  (xs_near (y ← make (Nda DFloat (Arr [3; 4] [VFloat (num_of_Z 2%Z); VFloat (NaN); VFloat (num_of_Z 3%Z); VFloat (num_of_Z 1%Z); VFloat (num_of_Z 3%Z); VFloat (NaN); VFloat (num_of_Z 2%Z); VFloat (num_of_Z 1%Z); VFloat (num_of_Z 1%Z); VFloat (NaN); VFloat (num_of_Z 1%Z); VFloat (num_of_Z 1%Z)])) (Some [[LInt 0%Z; LInt 1%Z; LInt 2%Z]; [LStr "A"%string; LStr "B"%string; LStr "C"%string; LStr "D"%string]]); vacuum y (AxInt 1%Z)) (make (Nda DFloat (Arr [3; 4] [VFloat (num_of_Z 2%Z); VFloat (NaN); VFloat (num_of_Z 3%Z); VFloat (num_of_Z 1%Z); VFloat (num_of_Z 3%Z); VFloat (NaN); VFloat (num_of_Z 2%Z); VFloat (num_of_Z 1%Z); VFloat (num_of_Z 1%Z); VFloat (NaN); VFloat (num_of_Z 1%Z); VFloat (num_of_Z 1%Z)])) (Some [[LInt 0%Z; LInt 1%Z; LInt 2%Z]; [LStr "A"%string; LStr "B"%string; LStr "C"%string; LStr "D"%string]]))) &&
  (labels_same (y ← make (Nda DFloat (Arr [3; 4] [VFloat (num_of_Z 2%Z); VFloat (NaN); VFloat (num_of_Z 3%Z); VFloat (num_of_Z 1%Z); VFloat (num_of_Z 3%Z); VFloat (NaN); VFloat (num_of_Z 2%Z); VFloat (num_of_Z 1%Z); VFloat (num_of_Z 1%Z); VFloat (NaN); VFloat (num_of_Z 1%Z); VFloat (num_of_Z 1%Z)])) (Some [[LInt 0%Z; LInt 1%Z; LInt 2%Z]; [LStr "A"%string; LStr "B"%string; LStr "C"%string; LStr "D"%string]]); vacuum y (AxInt 1%Z)) (make (Nda DFloat (Arr [3; 4] [VFloat (num_of_Z 2%Z); VFloat (NaN); VFloat (num_of_Z 3%Z); VFloat (num_of_Z 1%Z); VFloat (num_of_Z 3%Z); VFloat (NaN); VFloat (num_of_Z 2%Z); VFloat (num_of_Z 1%Z); VFloat (num_of_Z 1%Z); VFloat (NaN); VFloat (num_of_Z 1%Z); VFloat (num_of_Z 1%Z)])) (Some [[LInt 0%Z; LInt 1%Z; LInt 2%Z]; [LStr "A"%string; LStr "B"%string; LStr "C"%string; LStr "D"%string]]))) = true.
Proof. by vm_compute. Qed.
