(** Written by tools/unit/gen.py from the unit tests of la: 63 tests, 67
    assertions.  The tests are read as text; a test or assertion that the
    reader does not follow is left out. *)
From Verif Require Import UnitBase.
From Verif Require Import Session SetArray.

(** la/farray/tests/farray_test.py:31 *)
Example farray__Test_group_ranking__test_group_ranking_1 :
  (x_near (y ← make (Nda DFloat (Arr [6; 6] [VFloat (num_of_Z 0%Z); VFloat (num_of_Z 3%Z); VFloat (NaN); VFloat (NaN); VFloat (num_of_Z 0%Z); VFloat (NaN); VFloat (num_of_Z 1%Z); VFloat (num_of_Z 1%Z); VFloat (num_of_Z 1%Z); VFloat (NaN); VFloat (NaN); VFloat (NaN); VFloat (num_of_Z 2%Z); VFloat (num_of_Z 2%Z); VFloat (num_of_Z 0%Z); VFloat (NaN); VFloat (num_of_Z 1%Z); VFloat (NaN); VFloat (num_of_Z 3%Z); VFloat (num_of_Z 0%Z); VFloat (num_of_Z 2%Z); VFloat (NaN); VFloat (NaN); VFloat (NaN); VFloat (num_of_Z 4%Z); VFloat (num_of_Z 4%Z); VFloat (num_of_Z 3%Z); VFloat (num_of_Z 0%Z); VFloat (num_of_Z 2%Z); VFloat (NaN); VFloat (num_of_Z 5%Z); VFloat (num_of_Z 5%Z); VFloat (num_of_Z 4%Z); VFloat (num_of_Z 4%Z); VFloat (NaN); VFloat (NaN)])) None; g ← make (Nda DObj (Arr [6] [VStr "a"%string; VStr "b"%string; VStr "a"%string; VStr "b"%string; VStr "a"%string; VStr "c"%string])) None; larry_group_ranking y (Some g) 0%Z) [6; 6] [VFloat (num_of_Z (-1)%Z); VFloat (num_of_Z 0%Z); VFloat (NaN); VFloat (NaN); VFloat (num_of_Z (-1)%Z); VFloat (NaN); VFloat (num_of_Z (-1)%Z); VFloat (num_of_Z 1%Z); VFloat (num_of_Z (-1)%Z); VFloat (NaN); VFloat (NaN); VFloat (NaN); VFloat (num_of_Z 0%Z); VFloat (num_of_Z (-1)%Z); VFloat (num_of_Z (-1)%Z); VFloat (NaN); VFloat (num_of_Z 0%Z); VFloat (NaN); VFloat (num_of_Z 1%Z); VFloat (num_of_Z (-1)%Z); VFloat (num_of_Z 1%Z); VFloat (NaN); VFloat (NaN); VFloat (NaN); VFloat (num_of_Z 1%Z); VFloat (num_of_Z 1%Z); VFloat (num_of_Z 1%Z); VFloat (num_of_Z 0%Z); VFloat (num_of_Z 1%Z); VFloat (NaN); VFloat (num_of_Z 0%Z); VFloat (num_of_Z 0%Z); VFloat (num_of_Z 0%Z); VFloat (num_of_Z 0%Z); VFloat (NaN); VFloat (NaN)]) = true.
Proof. by vm_compute. Qed.
(** la/farray/tests/farray_test.py:44 *)
Example farray__Test_group_ranking__test_group_ranking_2 :
  (x_near (y ← make (Nda DFloat (Arr [6; 6] [VFloat (num_of_Z 0%Z); VFloat (num_of_Z 3%Z); VFloat (NaN); VFloat (NaN); VFloat (num_of_Z 0%Z); VFloat (NaN); VFloat (num_of_Z 1%Z); VFloat (num_of_Z 1%Z); VFloat (num_of_Z 1%Z); VFloat (NaN); VFloat (NaN); VFloat (NaN); VFloat (num_of_Z 2%Z); VFloat (num_of_Z 2%Z); VFloat (num_of_Z 0%Z); VFloat (NaN); VFloat (num_of_Z 1%Z); VFloat (NaN); VFloat (num_of_Z 3%Z); VFloat (num_of_Z 0%Z); VFloat (num_of_Z 2%Z); VFloat (NaN); VFloat (NaN); VFloat (NaN); VFloat (num_of_Z 4%Z); VFloat (num_of_Z 4%Z); VFloat (num_of_Z 3%Z); VFloat (num_of_Z 0%Z); VFloat (num_of_Z 2%Z); VFloat (NaN); VFloat (num_of_Z 5%Z); VFloat (num_of_Z 5%Z); VFloat (num_of_Z 4%Z); VFloat (num_of_Z 4%Z); VFloat (NaN); VFloat (NaN)])) None; g ← make (Nda DObj (Arr [6] [VStr "a"%string; VStr "b"%string; VStr "a"%string; VStr "b"%string; VStr "a"%string; VNone])) None; larry_group_ranking y (Some g) 0%Z) [6; 6] [VFloat (num_of_Z (-1)%Z); VFloat (num_of_Z 0%Z); VFloat (NaN); VFloat (NaN); VFloat (num_of_Z (-1)%Z); VFloat (NaN); VFloat (num_of_Z (-1)%Z); VFloat (num_of_Z 1%Z); VFloat (num_of_Z (-1)%Z); VFloat (NaN); VFloat (NaN); VFloat (NaN); VFloat (num_of_Z 0%Z); VFloat (num_of_Z (-1)%Z); VFloat (num_of_Z (-1)%Z); VFloat (NaN); VFloat (num_of_Z 0%Z); VFloat (NaN); VFloat (num_of_Z 1%Z); VFloat (num_of_Z (-1)%Z); VFloat (num_of_Z 1%Z); VFloat (NaN); VFloat (NaN); VFloat (NaN); VFloat (num_of_Z 1%Z); VFloat (num_of_Z 1%Z); VFloat (num_of_Z 1%Z); VFloat (num_of_Z 0%Z); VFloat (num_of_Z 1%Z); VFloat (NaN); VFloat (NaN); VFloat (NaN); VFloat (NaN); VFloat (NaN); VFloat (NaN); VFloat (NaN)]) = true.
Proof. by vm_compute. Qed.
(** la/farray/tests/farray_test.py:69 *)
Example farray__Test_group_mean__test_group_mean_1 :
  (x_near (y ← make (Nda DFloat (Arr [6; 6] [VFloat (num_of_Z 0%Z); VFloat (num_of_Z 3%Z); VFloat (NaN); VFloat (NaN); VFloat (num_of_Z 0%Z); VFloat (NaN); VFloat (num_of_Z 1%Z); VFloat (num_of_Z 1%Z); VFloat (num_of_Z 1%Z); VFloat (NaN); VFloat (NaN); VFloat (NaN); VFloat (num_of_Z 2%Z); VFloat (num_of_Z 2%Z); VFloat (num_of_Z 0%Z); VFloat (NaN); VFloat (num_of_Z 1%Z); VFloat (NaN); VFloat (num_of_Z 3%Z); VFloat (num_of_Z 0%Z); VFloat (num_of_Z 2%Z); VFloat (NaN); VFloat (NaN); VFloat (NaN); VFloat (num_of_Z 4%Z); VFloat (num_of_Z 4%Z); VFloat (num_of_Z 3%Z); VFloat (num_of_Z 0%Z); VFloat (num_of_Z 2%Z); VFloat (NaN); VFloat (num_of_Z 5%Z); VFloat (num_of_Z 5%Z); VFloat (num_of_Z 4%Z); VFloat (num_of_Z 4%Z); VFloat (NaN); VFloat (NaN)])) None; g ← make (Nda DObj (Arr [6] [VStr "a"%string; VStr "b"%string; VStr "a"%string; VStr "b"%string; VStr "a"%string; VStr "c"%string])) None; larry_group_mean y (Some g) 0%Z) [6; 6] [VFloat (num_of_Z 2%Z); VFloat (num_of_Z 3%Z); VFloat (ra 3%Z 2); VFloat (num_of_Z 0%Z); VFloat (num_of_Z 1%Z); VFloat (NaN); VFloat (num_of_Z 2%Z); VFloat (ra 1%Z 2); VFloat (ra 3%Z 2); VFloat (NaN); VFloat (NaN); VFloat (NaN); VFloat (num_of_Z 2%Z); VFloat (num_of_Z 3%Z); VFloat (ra 3%Z 2); VFloat (num_of_Z 0%Z); VFloat (num_of_Z 1%Z); VFloat (NaN); VFloat (num_of_Z 2%Z); VFloat (ra 1%Z 2); VFloat (ra 3%Z 2); VFloat (NaN); VFloat (NaN); VFloat (NaN); VFloat (num_of_Z 2%Z); VFloat (num_of_Z 3%Z); VFloat (ra 3%Z 2); VFloat (num_of_Z 0%Z); VFloat (num_of_Z 1%Z); VFloat (NaN); VFloat (num_of_Z 5%Z); VFloat (num_of_Z 5%Z); VFloat (num_of_Z 4%Z); VFloat (num_of_Z 4%Z); VFloat (NaN); VFloat (NaN)]) = true.
Proof. by vm_compute. Qed.
(** la/farray/tests/farray_test.py:81 *)
Example farray__Test_group_mean__test_group_mean_2 :
  (x_near (y ← make (Nda DFloat (Arr [6; 6] [VFloat (num_of_Z 0%Z); VFloat (num_of_Z 3%Z); VFloat (NaN); VFloat (NaN); VFloat (num_of_Z 0%Z); VFloat (NaN); VFloat (num_of_Z 1%Z); VFloat (num_of_Z 1%Z); VFloat (num_of_Z 1%Z); VFloat (NaN); VFloat (NaN); VFloat (NaN); VFloat (num_of_Z 2%Z); VFloat (num_of_Z 2%Z); VFloat (num_of_Z 0%Z); VFloat (NaN); VFloat (num_of_Z 1%Z); VFloat (NaN); VFloat (num_of_Z 3%Z); VFloat (num_of_Z 0%Z); VFloat (num_of_Z 2%Z); VFloat (NaN); VFloat (NaN); VFloat (NaN); VFloat (num_of_Z 4%Z); VFloat (num_of_Z 4%Z); VFloat (num_of_Z 3%Z); VFloat (num_of_Z 0%Z); VFloat (num_of_Z 2%Z); VFloat (NaN); VFloat (num_of_Z 5%Z); VFloat (num_of_Z 5%Z); VFloat (num_of_Z 4%Z); VFloat (num_of_Z 4%Z); VFloat (NaN); VFloat (NaN)])) None; g ← make (Nda DObj (Arr [6] [VStr "a"%string; VStr "b"%string; VStr "a"%string; VStr "b"%string; VStr "a"%string; VNone])) None; larry_group_mean y (Some g) 0%Z) [6; 6] [VFloat (num_of_Z 2%Z); VFloat (num_of_Z 3%Z); VFloat (ra 3%Z 2); VFloat (num_of_Z 0%Z); VFloat (num_of_Z 1%Z); VFloat (NaN); VFloat (num_of_Z 2%Z); VFloat (ra 1%Z 2); VFloat (ra 3%Z 2); VFloat (NaN); VFloat (NaN); VFloat (NaN); VFloat (num_of_Z 2%Z); VFloat (num_of_Z 3%Z); VFloat (ra 3%Z 2); VFloat (num_of_Z 0%Z); VFloat (num_of_Z 1%Z); VFloat (NaN); VFloat (num_of_Z 2%Z); VFloat (ra 1%Z 2); VFloat (ra 3%Z 2); VFloat (NaN); VFloat (NaN); VFloat (NaN); VFloat (num_of_Z 2%Z); VFloat (num_of_Z 3%Z); VFloat (ra 3%Z 2); VFloat (num_of_Z 0%Z); VFloat (num_of_Z 1%Z); VFloat (NaN); VFloat (NaN); VFloat (NaN); VFloat (NaN); VFloat (NaN); VFloat (NaN); VFloat (NaN)]) = true.
Proof. by vm_compute. Qed.
(** la/farray/tests/farray_test.py:93 *)
Example farray__Test_group_mean__test_group_mean_3 :
  (x_near (y ← make (Nda DInt (Arr [5; 2] [VInt 1%Z; VInt 2%Z; VInt 3%Z; VInt 4%Z; VInt 6%Z; VInt 7%Z; VInt 0%Z; VInt 0%Z; VInt 8%Z; VInt (-1)%Z])) None; g ← make (Nda DObj (Arr [5] [VStr "a"%string; VStr "b"%string; VStr "a"%string; VStr "b"%string; VStr "a"%string])) None; larry_group_mean y (Some g) 0%Z) [5; 2] [VFloat (num_of_Z 5%Z); VFloat (ra 5333333333333333%Z 2000000000000000); VFloat (ra 3%Z 2); VFloat (num_of_Z 2%Z); VFloat (num_of_Z 5%Z); VFloat (ra 5333333333333333%Z 2000000000000000); VFloat (ra 3%Z 2); VFloat (num_of_Z 2%Z); VFloat (num_of_Z 5%Z); VFloat (ra 5333333333333333%Z 2000000000000000)]) = true.
Proof. by vm_compute. Qed.
(** la/farray/tests/farray_test.py:121 *)
Example farray__Test_group_median__test_median_1 :
  (x_near (y ← make (Nda DFloat (Arr [6; 6] [VFloat (num_of_Z 0%Z); VFloat (num_of_Z 3%Z); VFloat (NaN); VFloat (NaN); VFloat (num_of_Z 0%Z); VFloat (NaN); VFloat (num_of_Z 1%Z); VFloat (num_of_Z 1%Z); VFloat (num_of_Z 1%Z); VFloat (NaN); VFloat (NaN); VFloat (NaN); VFloat (num_of_Z 2%Z); VFloat (num_of_Z 2%Z); VFloat (num_of_Z 0%Z); VFloat (NaN); VFloat (num_of_Z 1%Z); VFloat (NaN); VFloat (num_of_Z 3%Z); VFloat (num_of_Z 0%Z); VFloat (num_of_Z 2%Z); VFloat (NaN); VFloat (NaN); VFloat (NaN); VFloat (num_of_Z 4%Z); VFloat (num_of_Z 4%Z); VFloat (num_of_Z 3%Z); VFloat (num_of_Z 0%Z); VFloat (num_of_Z 2%Z); VFloat (NaN); VFloat (num_of_Z 5%Z); VFloat (num_of_Z 5%Z); VFloat (num_of_Z 4%Z); VFloat (num_of_Z 4%Z); VFloat (NaN); VFloat (NaN)])) None; g ← make (Nda DObj (Arr [6] [VStr "a"%string; VStr "b"%string; VStr "a"%string; VStr "b"%string; VStr "a"%string; VStr "c"%string])) None; larry_group_median y (Some g) 0%Z) [6; 6] [VFloat (num_of_Z 2%Z); VFloat (num_of_Z 3%Z); VFloat (ra 3%Z 2); VFloat (num_of_Z 0%Z); VFloat (num_of_Z 1%Z); VFloat (NaN); VFloat (num_of_Z 2%Z); VFloat (ra 1%Z 2); VFloat (ra 3%Z 2); VFloat (NaN); VFloat (NaN); VFloat (NaN); VFloat (num_of_Z 2%Z); VFloat (num_of_Z 3%Z); VFloat (ra 3%Z 2); VFloat (num_of_Z 0%Z); VFloat (num_of_Z 1%Z); VFloat (NaN); VFloat (num_of_Z 2%Z); VFloat (ra 1%Z 2); VFloat (ra 3%Z 2); VFloat (NaN); VFloat (NaN); VFloat (NaN); VFloat (num_of_Z 2%Z); VFloat (num_of_Z 3%Z); VFloat (ra 3%Z 2); VFloat (num_of_Z 0%Z); VFloat (num_of_Z 1%Z); VFloat (NaN); VFloat (num_of_Z 5%Z); VFloat (num_of_Z 5%Z); VFloat (num_of_Z 4%Z); VFloat (num_of_Z 4%Z); VFloat (NaN); VFloat (NaN)]) = true.
Proof. by vm_compute. Qed.
(** la/farray/tests/farray_test.py:133 *)
Example farray__Test_group_median__test_group_median_2 :
  (x_near (y ← make (Nda DFloat (Arr [6; 6] [VFloat (num_of_Z 0%Z); VFloat (num_of_Z 3%Z); VFloat (NaN); VFloat (NaN); VFloat (num_of_Z 0%Z); VFloat (NaN); VFloat (num_of_Z 1%Z); VFloat (num_of_Z 1%Z); VFloat (num_of_Z 1%Z); VFloat (NaN); VFloat (NaN); VFloat (NaN); VFloat (num_of_Z 2%Z); VFloat (num_of_Z 2%Z); VFloat (num_of_Z 0%Z); VFloat (NaN); VFloat (num_of_Z 1%Z); VFloat (NaN); VFloat (num_of_Z 3%Z); VFloat (num_of_Z 0%Z); VFloat (num_of_Z 2%Z); VFloat (NaN); VFloat (NaN); VFloat (NaN); VFloat (num_of_Z 4%Z); VFloat (num_of_Z 4%Z); VFloat (num_of_Z 3%Z); VFloat (num_of_Z 0%Z); VFloat (num_of_Z 2%Z); VFloat (NaN); VFloat (num_of_Z 5%Z); VFloat (num_of_Z 5%Z); VFloat (num_of_Z 4%Z); VFloat (num_of_Z 4%Z); VFloat (NaN); VFloat (NaN)])) None; g ← make (Nda DObj (Arr [6] [VStr "a"%string; VStr "b"%string; VStr "a"%string; VStr "b"%string; VStr "a"%string; VNone])) None; larry_group_median y (Some g) 0%Z) [6; 6] [VFloat (num_of_Z 2%Z); VFloat (num_of_Z 3%Z); VFloat (ra 3%Z 2); VFloat (num_of_Z 0%Z); VFloat (num_of_Z 1%Z); VFloat (NaN); VFloat (num_of_Z 2%Z); VFloat (ra 1%Z 2); VFloat (ra 3%Z 2); VFloat (NaN); VFloat (NaN); VFloat (NaN); VFloat (num_of_Z 2%Z); VFloat (num_of_Z 3%Z); VFloat (ra 3%Z 2); VFloat (num_of_Z 0%Z); VFloat (num_of_Z 1%Z); VFloat (NaN); VFloat (num_of_Z 2%Z); VFloat (ra 1%Z 2); VFloat (ra 3%Z 2); VFloat (NaN); VFloat (NaN); VFloat (NaN); VFloat (num_of_Z 2%Z); VFloat (num_of_Z 3%Z); VFloat (ra 3%Z 2); VFloat (num_of_Z 0%Z); VFloat (num_of_Z 1%Z); VFloat (NaN); VFloat (NaN); VFloat (NaN); VFloat (NaN); VFloat (NaN); VFloat (NaN); VFloat (NaN)]) = true.
Proof. by vm_compute. Qed.
(** la/farray/tests/farray_test.py:145 *)
Example farray__Test_group_median__test_group_median_3 :
  (x_near (y ← make (Nda DInt (Arr [5; 2] [VInt 1%Z; VInt 2%Z; VInt 3%Z; VInt 4%Z; VInt 6%Z; VInt 7%Z; VInt 0%Z; VInt 0%Z; VInt 8%Z; VInt (-1)%Z])) None; g ← make (Nda DObj (Arr [5] [VStr "a"%string; VStr "b"%string; VStr "a"%string; VStr "b"%string; VStr "a"%string])) None; larry_group_median y (Some g) 0%Z) [5; 2] [VFloat (num_of_Z 6%Z); VFloat (num_of_Z 2%Z); VFloat (ra 3%Z 2); VFloat (num_of_Z 2%Z); VFloat (num_of_Z 6%Z); VFloat (num_of_Z 2%Z); VFloat (ra 3%Z 2); VFloat (num_of_Z 2%Z); VFloat (num_of_Z 6%Z); VFloat (num_of_Z 2%Z)]) = true.
Proof. by vm_compute. Qed.
(** la/farray/tests/farray_test.py:179 *)
Example farray__Test_ranking__test_ranking_1 :
  (x_near (y ← make (Nda DFloat (Arr [3; 5] [VFloat (num_of_Z 1%Z); VFloat (NaN); VFloat (num_of_Z 2%Z); VFloat (NaN); VFloat (NaN); VFloat (num_of_Z 2%Z); VFloat (num_of_Z 2%Z); VFloat (NaN); VFloat (NaN); VFloat (NaN); VFloat (num_of_Z 3%Z); VFloat (num_of_Z 3%Z); VFloat (num_of_Z 3%Z); VFloat (num_of_Z 3%Z); VFloat (NaN)])) None; larry_ranking id y (Some 0%Z) NormOne) [3; 5] [VFloat (num_of_Z (-1)%Z); VFloat (NaN); VFloat (num_of_Z (-1)%Z); VFloat (NaN); VFloat (NaN); VFloat (num_of_Z 0%Z); VFloat (num_of_Z (-1)%Z); VFloat (NaN); VFloat (NaN); VFloat (NaN); VFloat (num_of_Z 1%Z); VFloat (num_of_Z 1%Z); VFloat (num_of_Z 1%Z); VFloat (num_of_Z 0%Z); VFloat (NaN)]) = true.
Proof. by vm_compute. Qed.
(** la/farray/tests/farray_test.py:191 *)
Example farray__Test_ranking__test_ranking_2 :
  (x_near (y ← make (Nda DFloat (Arr [3; 5] [VFloat (num_of_Z 1%Z); VFloat (NaN); VFloat (num_of_Z 2%Z); VFloat (NaN); VFloat (NaN); VFloat (num_of_Z 2%Z); VFloat (num_of_Z 2%Z); VFloat (NaN); VFloat (NaN); VFloat (NaN); VFloat (num_of_Z 3%Z); VFloat (num_of_Z 3%Z); VFloat (num_of_Z 3%Z); VFloat (num_of_Z 3%Z); VFloat (NaN)])) None; larry_ranking id y (Some 0%Z) NormOne) [3; 5] [VFloat (num_of_Z (-1)%Z); VFloat (NaN); VFloat (num_of_Z (-1)%Z); VFloat (NaN); VFloat (NaN); VFloat (num_of_Z 0%Z); VFloat (num_of_Z (-1)%Z); VFloat (NaN); VFloat (NaN); VFloat (NaN); VFloat (num_of_Z 1%Z); VFloat (num_of_Z 1%Z); VFloat (num_of_Z 1%Z); VFloat (num_of_Z 0%Z); VFloat (NaN)]) = true.
Proof. by vm_compute. Qed.
(** la/farray/tests/farray_test.py:203 *)
Example farray__Test_ranking__test_ranking_3 :
  (x_near (y ← make (Nda DFloat (Arr [4; 5] [VFloat (num_of_Z 1%Z); VFloat (NaN); VFloat (num_of_Z 2%Z); VFloat (NaN); VFloat (NaN); VFloat (num_of_Z 2%Z); VFloat (num_of_Z 2%Z); VFloat (NaN); VFloat (NaN); VFloat (NaN); VFloat (num_of_Z 3%Z); VFloat (num_of_Z 3%Z); VFloat (num_of_Z 3%Z); VFloat (num_of_Z 3%Z); VFloat (NaN); VFloat (num_of_Z 4%Z); VFloat (num_of_Z 2%Z); VFloat (num_of_Z 3%Z); VFloat (num_of_Z 1%Z); VFloat (num_of_Z 0%Z)])) None; larry_ranking id y (Some 1%Z) NormOne) [4; 5] [VFloat (num_of_Z (-1)%Z); VFloat (NaN); VFloat (num_of_Z 1%Z); VFloat (NaN); VFloat (NaN); VFloat (num_of_Z 0%Z); VFloat (num_of_Z 0%Z); VFloat (NaN); VFloat (NaN); VFloat (NaN); VFloat (num_of_Z 0%Z); VFloat (num_of_Z 0%Z); VFloat (num_of_Z 0%Z); VFloat (num_of_Z 0%Z); VFloat (NaN); VFloat (num_of_Z 1%Z); VFloat (num_of_Z 0%Z); VFloat (ra 1%Z 2); VFloat (ra (-1)%Z 2); VFloat (num_of_Z (-1)%Z)]) = true.
Proof. by vm_compute. Qed.
(** la/farray/tests/farray_test.py:231 *)
Example farray__Test_ranking__test_ranking_6 :
  (x_near (y ← make (Nda DFloat (Arr [4; 5] [VFloat (num_of_Z 1%Z); VFloat (NaN); VFloat (num_of_Z 1%Z); VFloat (NaN); VFloat (NaN); VFloat (num_of_Z 1%Z); VFloat (num_of_Z 1%Z); VFloat (NaN); VFloat (NaN); VFloat (NaN); VFloat (num_of_Z 1%Z); VFloat (num_of_Z 2%Z); VFloat (num_of_Z 0%Z); VFloat (num_of_Z 2%Z); VFloat (NaN); VFloat (num_of_Z 1%Z); VFloat (num_of_Z 3%Z); VFloat (num_of_Z 1%Z); VFloat (num_of_Z 1%Z); VFloat (num_of_Z 0%Z)])) None; larry_ranking id y (Some 0%Z) NormOne) [4; 5] [VFloat (num_of_Z 0%Z); VFloat (NaN); VFloat (ra 1%Z 2); VFloat (NaN); VFloat (NaN); VFloat (num_of_Z 0%Z); VFloat (num_of_Z (-1)%Z); VFloat (NaN); VFloat (NaN); VFloat (NaN); VFloat (num_of_Z 0%Z); VFloat (num_of_Z 0%Z); VFloat (num_of_Z (-1)%Z); VFloat (num_of_Z 1%Z); VFloat (NaN); VFloat (num_of_Z 0%Z); VFloat (num_of_Z 1%Z); VFloat (ra 1%Z 2); VFloat (num_of_Z (-1)%Z); VFloat (num_of_Z 0%Z)]) = true.
Proof. by vm_compute. Qed.
(** la/farray/tests/farray_test.py:286 *)
Example farray__Test_ranking__test_ranking_10 :
  (x_near (y ← make (Nda DFloat (Arr [3; 1] [VFloat (NaN); VFloat (NaN); VFloat (NaN)])) None; larry_ranking id y (Some 0%Z) NormOne) [3; 1] [VFloat (NaN); VFloat (NaN); VFloat (NaN)]) = true.
Proof. by vm_compute. Qed.
(** la/farray/tests/farray_test.py:297 *)
Example farray__Test_ranking__test_ranking_11 :
  (x_near (y ← make (Nda DFloat (Arr [3; 2] [VFloat (NaN); VFloat (NaN); VFloat (NaN); VFloat (NaN); VFloat (NaN); VFloat (NaN)])) None; larry_ranking id y (Some 0%Z) NormOne) [3; 2] [VFloat (NaN); VFloat (NaN); VFloat (NaN); VFloat (NaN); VFloat (NaN); VFloat (NaN)]) = true.
Proof. by vm_compute. Qed.
(** la/farray/tests/farray_test.py:308 *)
Example farray__Test_ranking__test_ranking_12 :
  (x_near (y ← make (Nda DFloat (Arr [1; 3] [VFloat (NaN); VFloat (NaN); VFloat (NaN)])) None; larry_ranking id y (Some 1%Z) NormOne) [1; 3] [VFloat (NaN); VFloat (NaN); VFloat (NaN)]) = true.
Proof. by vm_compute. Qed.
(** la/farray/tests/farray_test.py:315 *)
Example farray__Test_ranking__test_ranking_13 :
  (x_near (y ← make (Nda DFloat (Arr [3] [VFloat (num_of_Z 1%Z); VFloat (PInf); VFloat (num_of_Z 2%Z)])) None; larry_ranking id y (Some 0%Z) NormOne) [3] [VFloat (num_of_Z (-1)%Z); VFloat (num_of_Z 1%Z); VFloat (num_of_Z 0%Z)]) = true.
Proof. by vm_compute. Qed.
(** la/farray/tests/farray_test.py:322 *)
Example farray__Test_ranking__test_ranking_14 :
  (x_near (y ← make (Nda DFloat (Arr [4] [VFloat (NInf); VFloat (NaN); VFloat (num_of_Z 1%Z); VFloat (PInf)])) None; larry_ranking id y (Some 0%Z) NormOne) [4] [VFloat (num_of_Z (-1)%Z); VFloat (NaN); VFloat (num_of_Z 0%Z); VFloat (num_of_Z 1%Z)]) = true.
Proof. by vm_compute. Qed.
(** la/farray/tests/farray_test.py:329 *)
Example farray__Test_ranking__test_ranking_15 :
  (x_near (y ← make (Nda DFloat (Arr [4] [VFloat (NInf); VFloat (NaN); VFloat (num_of_Z 1%Z); VFloat (PInf)])) None; larry_ranking id y None NormOne) [4] [VFloat (num_of_Z (-1)%Z); VFloat (NaN); VFloat (num_of_Z 0%Z); VFloat (num_of_Z 1%Z)]) = true.
Proof. by vm_compute. Qed.
(** la/farray/tests/farray_test.py:432 *)
Example farray__Test_movingsum_forward__test_movingsum_forward_1 :
  (x_near (y ← make (Nda DFloat (Arr [2; 5] [VFloat (num_of_Z 1%Z); VFloat (NaN); VFloat (num_of_Z 6%Z); VFloat (num_of_Z 0%Z); VFloat (num_of_Z 8%Z); VFloat (num_of_Z 2%Z); VFloat (num_of_Z 4%Z); VFloat (num_of_Z 8%Z); VFloat (num_of_Z 0%Z); VFloat (num_of_Z (-1)%Z)])) None; larry_movingsum_forward y 2%Z 0 (-1)%Z true) [2; 5] [VFloat (num_of_Z 2%Z); VFloat (num_of_Z 12%Z); VFloat (num_of_Z 6%Z); VFloat (num_of_Z 8%Z); VFloat (NaN); VFloat (num_of_Z 6%Z); VFloat (num_of_Z 12%Z); VFloat (num_of_Z 8%Z); VFloat (num_of_Z (-1)%Z); VFloat (NaN)]) = true.
Proof. by vm_compute. Qed.
(** la/farray/tests/farray_test.py:440 *)
Example farray__Test_movingsum_forward__test_movingsum_forward_2 :
  (x_near (y ← make (Nda DFloat (Arr [2; 5] [VFloat (num_of_Z 1%Z); VFloat (NaN); VFloat (num_of_Z 6%Z); VFloat (num_of_Z 0%Z); VFloat (num_of_Z 8%Z); VFloat (num_of_Z 2%Z); VFloat (num_of_Z 4%Z); VFloat (num_of_Z 8%Z); VFloat (num_of_Z 0%Z); VFloat (num_of_Z (-1)%Z)])) None; larry_movingsum_forward y 2%Z 0 (-1)%Z false) [2; 5] [VFloat (num_of_Z 1%Z); VFloat (num_of_Z 6%Z); VFloat (num_of_Z 6%Z); VFloat (num_of_Z 8%Z); VFloat (NaN); VFloat (num_of_Z 6%Z); VFloat (num_of_Z 12%Z); VFloat (num_of_Z 8%Z); VFloat (num_of_Z (-1)%Z); VFloat (NaN)]) = true.
Proof. by vm_compute. Qed.
(** la/farray/tests/farray_test.py:448 *)
Example farray__Test_movingsum_forward__test_movingsum_forward_3 :
  (x_near (y ← make (Nda DFloat (Arr [2; 5] [VFloat (num_of_Z 1%Z); VFloat (NaN); VFloat (num_of_Z 6%Z); VFloat (num_of_Z 0%Z); VFloat (num_of_Z 8%Z); VFloat (num_of_Z 2%Z); VFloat (num_of_Z 4%Z); VFloat (num_of_Z 8%Z); VFloat (num_of_Z 0%Z); VFloat (num_of_Z (-1)%Z)])) None; larry_movingsum_forward y 2%Z 1 (-1)%Z true) [2; 5] [VFloat (num_of_Z 12%Z); VFloat (num_of_Z 6%Z); VFloat (num_of_Z 8%Z); VFloat (NaN); VFloat (NaN); VFloat (num_of_Z 12%Z); VFloat (num_of_Z 8%Z); VFloat (num_of_Z (-1)%Z); VFloat (NaN); VFloat (NaN)]) = true.
Proof. by vm_compute. Qed.
(** la/farray/tests/farray_test.py:456 *)
Example farray__Test_movingsum_forward__test_movingsum_forward_4 :
  (x_near (y ← make (Nda DFloat (Arr [2; 5] [VFloat (num_of_Z 1%Z); VFloat (NaN); VFloat (num_of_Z 6%Z); VFloat (num_of_Z 0%Z); VFloat (num_of_Z 8%Z); VFloat (num_of_Z 2%Z); VFloat (num_of_Z 4%Z); VFloat (num_of_Z 8%Z); VFloat (num_of_Z 0%Z); VFloat (num_of_Z (-1)%Z)])) None; larry_movingsum_forward y 2%Z 1 (-1)%Z false) [2; 5] [VFloat (num_of_Z 6%Z); VFloat (num_of_Z 6%Z); VFloat (num_of_Z 8%Z); VFloat (NaN); VFloat (NaN); VFloat (num_of_Z 12%Z); VFloat (num_of_Z 8%Z); VFloat (num_of_Z (-1)%Z); VFloat (NaN); VFloat (NaN)]) = true.
Proof. by vm_compute. Qed.
(** la/farray/tests/farray_test.py:464 *)
Example farray__Test_movingsum_forward__test_movingsum_forward_5 :
  (x_near (y ← make (Nda DFloat (Arr [2; 5] [VFloat (num_of_Z 1%Z); VFloat (NaN); VFloat (num_of_Z 6%Z); VFloat (num_of_Z 0%Z); VFloat (num_of_Z 8%Z); VFloat (num_of_Z 2%Z); VFloat (num_of_Z 4%Z); VFloat (num_of_Z 8%Z); VFloat (num_of_Z 0%Z); VFloat (num_of_Z (-1)%Z)])) None; larry_movingsum_forward y 1%Z 1 0%Z false) [2; 5] [VFloat (num_of_Z 2%Z); VFloat (num_of_Z 4%Z); VFloat (num_of_Z 8%Z); VFloat (num_of_Z 0%Z); VFloat (num_of_Z (-1)%Z); VFloat (NaN); VFloat (NaN); VFloat (NaN); VFloat (NaN); VFloat (NaN)]) = true.
Proof. by vm_compute. Qed.
(** la/tests/deflarry_creation_test.py:10 *)
Example deflarry_creation__larry_init_list_test :
  (larry_same (lrange (Some [2; 2]) None (VInt 0%Z) (VInt 1%Z) None) (make (Nda DInt (Arr [2; 2] [VInt 0%Z; VInt 1%Z; VInt 2%Z; VInt 3%Z])) None)) = true.
Proof. by vm_compute. Qed.
(** la/tests/deflarry_creation_test.py:16 *)
Example deflarry_creation__larry_init_tuple_test :
  (larry_same (lrange (Some [2; 2]) None (VInt 0%Z) (VInt 1%Z) None) (make (Nda DInt (Arr [2; 2] [VInt 0%Z; VInt 1%Z; VInt 2%Z; VInt 3%Z])) None)) = true.
Proof. by vm_compute. Qed.
(** la/tests/deflarry_creation_test.py:28 *)
Example deflarry_creation__larry_init_array_test :
  (larry_same (lrange (Some [2; 2]) None (VInt 0%Z) (VInt 1%Z) None) (make (Nda DInt (Arr [2; 2] [VInt 0%Z; VInt 1%Z; VInt 2%Z; VInt 3%Z])) None)) = true.
Proof. by vm_compute. Qed.
(** la/tests/deflarry_getitem_test.py:21 *)
Example deflarry_getitem__test_getitem_01 :
  (larry_same (lar_of_gres (y ← make (Nda DFloat (Arr [3; 2] [VFloat (num_of_Z 1%Z); VFloat (NaN); VFloat (num_of_Z 3%Z); VFloat (num_of_Z 4%Z); VFloat (num_of_Z 5%Z); VFloat (num_of_Z 6%Z)])) None; larry_getitem y (XInt 1%Z))) (make (Nda DFloat (Arr [2] [VFloat (num_of_Z 3%Z); VFloat (num_of_Z 4%Z)])) None)) = true.
Proof. by vm_compute. Qed.
(** la/tests/deflarry_getitem_test.py:28 *)
Example deflarry_getitem__test_getitem_02 :
  (larry_same (lar_of_gres (y ← make (Nda DFloat (Arr [3; 2] [VFloat (num_of_Z 1%Z); VFloat (NaN); VFloat (num_of_Z 3%Z); VFloat (num_of_Z 4%Z); VFloat (num_of_Z 5%Z); VFloat (num_of_Z 6%Z)])) None; larry_getitem y (XTuple [IInt 1%Z; ISlice (Slice None None None)]))) (make (Nda DFloat (Arr [2] [VFloat (num_of_Z 3%Z); VFloat (num_of_Z 4%Z)])) None)) = true.
Proof. by vm_compute. Qed.
(** la/tests/deflarry_getitem_test.py:35 *)
Example deflarry_getitem__test_getitem_03 :
  (larry_same (lar_of_gres (y ← make (Nda DFloat (Arr [3; 2] [VFloat (num_of_Z 1%Z); VFloat (NaN); VFloat (num_of_Z 3%Z); VFloat (num_of_Z 4%Z); VFloat (num_of_Z 5%Z); VFloat (num_of_Z 6%Z)])) None; larry_getitem y (XTuple [IInt 1%Z; ISlice (Slice (Some 0%Z) (Some 2%Z) None)]))) (make (Nda DFloat (Arr [2] [VFloat (num_of_Z 3%Z); VFloat (num_of_Z 4%Z)])) None)) = true.
Proof. by vm_compute. Qed.
(** la/tests/deflarry_getitem_test.py:49 *)
Example deflarry_getitem__test_getitem05 :
  (larry_same (lar_of_gres (y ← make (Nda DFloat (Arr [3; 2] [VFloat (num_of_Z 1%Z); VFloat (NaN); VFloat (num_of_Z 3%Z); VFloat (num_of_Z 4%Z); VFloat (num_of_Z 5%Z); VFloat (num_of_Z 6%Z)])) None; larry_getitem y (XTuple [IBools [false; true; true]; ISlice (Slice None None None)]))) (make (Nda DFloat (Arr [2; 2] [VFloat (num_of_Z 3%Z); VFloat (num_of_Z 4%Z); VFloat (num_of_Z 5%Z); VFloat (num_of_Z 6%Z)])) (Some [[LInt 1%Z; LInt 2%Z]; [LInt 0%Z; LInt 1%Z]]))) = true.
Proof. by vm_compute. Qed.
(** la/tests/deflarry_getitem_test.py:60 *)
Example deflarry_getitem__test_getitem_06 :
  (larry_same (lar_of_gres (y ← make (Nda DFloat (Arr [3; 2] [VFloat (num_of_Z 1%Z); VFloat (NaN); VFloat (num_of_Z 3%Z); VFloat (num_of_Z 4%Z); VFloat (num_of_Z 5%Z); VFloat (num_of_Z 6%Z)])) None; larry_getitem y (XTuple [ISlice (Slice (Some 0%Z) (Some 2%Z) None); ISlice (Slice (Some 0%Z) (Some 2%Z) None)]))) (make (Nda DFloat (Arr [2; 2] [VFloat (num_of_Z 1%Z); VFloat (NaN); VFloat (num_of_Z 3%Z); VFloat (num_of_Z 4%Z)])) None)) = true.
Proof. by vm_compute. Qed.
(** la/tests/deflarry_getitem_test.py:68 *)
Example deflarry_getitem__test_getitem_07 :
  (larry_same (lar_of_gres (y ← make (Nda DFloat (Arr [3; 2] [VFloat (num_of_Z 1%Z); VFloat (NaN); VFloat (num_of_Z 3%Z); VFloat (num_of_Z 4%Z); VFloat (num_of_Z 5%Z); VFloat (num_of_Z 6%Z)])) None; larry_getitem y (XList [1%Z; 2%Z]))) (make (Nda DFloat (Arr [2; 2] [VFloat (num_of_Z 3%Z); VFloat (num_of_Z 4%Z); VFloat (num_of_Z 5%Z); VFloat (num_of_Z 6%Z)])) (Some [[LInt 1%Z; LInt 2%Z]; [LInt 0%Z; LInt 1%Z]]))) = true.
Proof. by vm_compute. Qed.
(** la/tests/deflarry_getitem_test.py:76 *)
Example deflarry_getitem__test_getitem_08 :
  (raises (y ← make (Nda DFloat (Arr [3; 2] [VFloat (num_of_Z 1%Z); VFloat (NaN); VFloat (num_of_Z 3%Z); VFloat (num_of_Z 4%Z); VFloat (num_of_Z 5%Z); VFloat (num_of_Z 6%Z)])) None; larry_getitem y (XInt 100%Z)) IndexError) = true.
Proof. by vm_compute. Qed.
(** la/tests/deflarry_getitem_test.py:93 *)
Example deflarry_getitem__test_getitem_11 :
  (larry_same (lar_of_gres (y ← make (Nda DInt (Arr [4] [VInt 0%Z; VInt 1%Z; VInt 2%Z; VInt 3%Z])) None; larry_getitem y (XSlice (Slice None (Some 2%Z) None)))) (make (Nda DInt (Arr [2] [VInt 0%Z; VInt 1%Z])) None)) = true.
Proof. by vm_compute. Qed.
(** la/tests/deflarry_getitem_test.py:100 *)
Example deflarry_getitem__test_getitem_12 :
  (larry_same (lar_of_gres (y ← make (Nda DFloat (Arr [3; 2] [VFloat (num_of_Z 1%Z); VFloat (NaN); VFloat (num_of_Z 3%Z); VFloat (num_of_Z 4%Z); VFloat (num_of_Z 5%Z); VFloat (num_of_Z 6%Z)])) None; larry_getitem y (XList [0%Z; 2%Z; 1%Z]))) (make (Nda DFloat (Arr [3; 2] [VFloat (num_of_Z 1%Z); VFloat (NaN); VFloat (num_of_Z 5%Z); VFloat (num_of_Z 6%Z); VFloat (num_of_Z 3%Z); VFloat (num_of_Z 4%Z)])) (Some [[LInt 0%Z; LInt 2%Z; LInt 1%Z]; [LInt 0%Z; LInt 1%Z]]))) = true.
Proof. by vm_compute. Qed.
(** la/tests/deflarry_getitem_test.py:124 *)
Example deflarry_getitem__test_getitem_14 :
  (larry_same (lar_of_gres (y ← make (Nda DFloat (Arr [3; 2] [VFloat (num_of_Z 1%Z); VFloat (NaN); VFloat (num_of_Z 3%Z); VFloat (num_of_Z 4%Z); VFloat (num_of_Z 5%Z); VFloat (num_of_Z 6%Z)])) None; larry_getitem y (XList [1%Z; 0%Z]))) (make (Nda DFloat (Arr [2; 2] [VFloat (num_of_Z 3%Z); VFloat (num_of_Z 4%Z); VFloat (num_of_Z 1%Z); VFloat (NaN)])) (Some [[LInt 1%Z; LInt 0%Z]; [LInt 0%Z; LInt 1%Z]]))) = true.
Proof. by vm_compute. Qed.
(** la/tests/deflarry_getitem_test.py:136 *)
Example deflarry_getitem__test_getitem_15 :
  (raises (y ← make (Nda DFloat (Arr [3; 2] [VFloat (num_of_Z 1%Z); VFloat (NaN); VFloat (num_of_Z 3%Z); VFloat (num_of_Z 4%Z); VFloat (num_of_Z 5%Z); VFloat (num_of_Z 6%Z)])) None; larry_getitem y (XList [0%Z; 1%Z; 0%Z])) IndexError) = true.
Proof. by vm_compute. Qed.
(** la/tests/deflarry_getitem_test.py:141 *)
Example deflarry_getitem__test_getitem_16 :
  (larry_same (lar_of_gres (y ← make (Nda DFloat (Arr [3; 2] [VFloat (num_of_Z 1%Z); VFloat (NaN); VFloat (num_of_Z 3%Z); VFloat (num_of_Z 4%Z); VFloat (num_of_Z 5%Z); VFloat (num_of_Z 6%Z)])) None; larry_getitem y (XTuple [IBools [true; false]; ISlice (Slice None None None)]))) (make (Nda DFloat (Arr [1; 2] [VFloat (num_of_Z 1%Z); VFloat (NaN)])) None)) = true.
Proof. by vm_compute. Qed.
(** la/tests/deflarry_getitem_test.py:149 *)
Example deflarry_getitem__test_getitem_17 :
  (larry_same (lar_of_gres (y ← make (Nda DFloat (Arr [3; 2] [VFloat (num_of_Z 1%Z); VFloat (NaN); VFloat (num_of_Z 3%Z); VFloat (num_of_Z 4%Z); VFloat (num_of_Z 5%Z); VFloat (num_of_Z 6%Z)])) None; larry_getitem y (XTuple [ISlice (Slice None None None); IBools [true; false]]))) (make (Nda DFloat (Arr [3; 1] [VFloat (num_of_Z 1%Z); VFloat (num_of_Z 3%Z); VFloat (num_of_Z 5%Z)])) None)) = true.
Proof. by vm_compute. Qed.
(** la/tests/deflarry_getitem_test.py:173 *)
Example deflarry_getitem__test_getitem_20 :
  (larry_same (lar_of_gres (y ← make (Nda DFloat (Arr [3; 2] [VFloat (num_of_Z 1%Z); VFloat (NaN); VFloat (num_of_Z 3%Z); VFloat (num_of_Z 4%Z); VFloat (num_of_Z 5%Z); VFloat (num_of_Z 6%Z)])) None; larry_getitem y (XTuple [IList [1%Z; 2%Z]; ISlice (Slice None None None)]))) (make (Nda DFloat (Arr [2; 2] [VFloat (num_of_Z 3%Z); VFloat (num_of_Z 4%Z); VFloat (num_of_Z 5%Z); VFloat (num_of_Z 6%Z)])) (Some [[LInt 1%Z; LInt 2%Z]; [LInt 0%Z; LInt 1%Z]]))) = true.
Proof. by vm_compute. Qed.
(** la/tests/deflarry_getitem_test.py:181 *)
Example deflarry_getitem__test_getitem_21 :
  (larry_same (lar_of_gres (y ← make (Nda DFloat (Arr [3; 2] [VFloat (num_of_Z 1%Z); VFloat (NaN); VFloat (num_of_Z 3%Z); VFloat (num_of_Z 4%Z); VFloat (num_of_Z 5%Z); VFloat (num_of_Z 6%Z)])) None; larry_getitem y (XTuple [IList [1%Z; 2%Z]; IInt 0%Z]))) (make (Nda DFloat (Arr [2] [VFloat (num_of_Z 3%Z); VFloat (num_of_Z 5%Z)])) (Some [[LInt 1%Z; LInt 2%Z]]))) = true.
Proof. by vm_compute. Qed.
(** la/tests/deflarry_getitem_test.py:188 *)
Example deflarry_getitem__test_getitem_22 :
  (v_near (val_of_gres (y ← make (Nda DObj (Arr [2] [VNone; VNone])) None; larry_getitem y (XInt 0%Z))) (VNone)) = true.
Proof. by vm_compute. Qed.
(** la/tests/deflarry_getitem_test.py:227 *)
Example deflarry_getitem__test_getitem_26 :
  (larry_same (lar_of_gres (y ← make (Nda DFloat (Arr [3; 2] [VFloat (num_of_Z 1%Z); VFloat (NaN); VFloat (num_of_Z 3%Z); VFloat (num_of_Z 4%Z); VFloat (num_of_Z 5%Z); VFloat (num_of_Z 6%Z)])) None; m ← make (Nda DBool (Arr [3] [VBool true; VBool false; VBool true])) None; larry_getitem y (XLarry m))) (lar_of_gres (y ← make (Nda DFloat (Arr [3; 2] [VFloat (num_of_Z 1%Z); VFloat (NaN); VFloat (num_of_Z 3%Z); VFloat (num_of_Z 4%Z); VFloat (num_of_Z 5%Z); VFloat (num_of_Z 6%Z)])) None; larry_getitem y (XList [0%Z; 2%Z])))) = true.
Proof. by vm_compute. Qed.
(** la/tests/deflarry_getitem_test.py:238 *)
Example deflarry_getitem__test_getitem_27 :
  (larry_same (lar_of_gres (y ← make (Nda DFloat (Arr [3; 2] [VFloat (num_of_Z 1%Z); VFloat (NaN); VFloat (num_of_Z 3%Z); VFloat (num_of_Z 4%Z); VFloat (num_of_Z 5%Z); VFloat (num_of_Z 6%Z)])) None; m1 ← make (Nda DBool (Arr [2] [VBool true; VBool false])) None; larry_getitem y (XTuple [ISlice (Slice None None None); ILarry m1]))) (lar_of_gres (y ← make (Nda DFloat (Arr [3; 2] [VFloat (num_of_Z 1%Z); VFloat (NaN); VFloat (num_of_Z 3%Z); VFloat (num_of_Z 4%Z); VFloat (num_of_Z 5%Z); VFloat (num_of_Z 6%Z)])) None; larry_getitem y (XTuple [ISlice (Slice None None None); IList [0%Z]])))) = true.
Proof. by vm_compute. Qed.
(** la/tests/deflarry_getitem_test.py:249 *)
Example deflarry_getitem__test_getitem_28 :
  (larry_same (lar_of_gres (y ← make (Nda DInt (Arr [4] [VInt 0%Z; VInt 1%Z; VInt 2%Z; VInt 3%Z])) None; m ← make (Nda DBool (Arr [4] [VBool true; VBool false; VBool true; VBool false])) None; larry_getitem y (XLarry m))) (lar_of_gres (y ← make (Nda DInt (Arr [4] [VInt 0%Z; VInt 1%Z; VInt 2%Z; VInt 3%Z])) None; larry_getitem y (XList [0%Z; 2%Z])))) = true.
Proof. by vm_compute. Qed.
(** la/tests/deflarry_getitem_test.py:260 *)
Example deflarry_getitem__test_getitem_29 :
  (raises (y ← make (Nda DFloat (Arr [3; 2] [VFloat (num_of_Z 1%Z); VFloat (NaN); VFloat (num_of_Z 3%Z); VFloat (num_of_Z 4%Z); VFloat (num_of_Z 5%Z); VFloat (num_of_Z 6%Z)])) None; m ← lar_of_gres (y ← make (Nda DBool (Arr [4] [VBool true; VBool false; VBool true; VBool false])) None; larry_getitem y (XSlice (Slice None None (Some (-1)%Z)))); larry_getitem y (XLarry m)) IndexError) &&
  (raises (y ← make (Nda DInt (Arr [4] [VInt 0%Z; VInt 1%Z; VInt 2%Z; VInt 3%Z])) None; m ← lar_of_gres (y ← make (Nda DBool (Arr [4] [VBool true; VBool false; VBool true; VBool false])) None; larry_getitem y (XSlice (Slice None None (Some (-1)%Z)))); larry_getitem y (XLarry m)) IndexError) &&
  (raises (y ← make (Nda DFloat (Arr [3; 2] [VFloat (num_of_Z 1%Z); VFloat (NaN); VFloat (num_of_Z 3%Z); VFloat (num_of_Z 4%Z); VFloat (num_of_Z 5%Z); VFloat (num_of_Z 6%Z)])) None; m ← make (Nda DInt (Arr [4] [VInt 0%Z; VInt 1%Z; VInt 2%Z; VInt 3%Z])) None; larry_getitem y (XLarry m)) IndexError) &&
  (raises (y ← make (Nda DInt (Arr [4] [VInt 0%Z; VInt 1%Z; VInt 2%Z; VInt 3%Z])) None; m ← make (Nda DInt (Arr [4] [VInt 0%Z; VInt 1%Z; VInt 2%Z; VInt 3%Z])) None; larry_getitem y (XLarry m)) IndexError) &&
  (raises (y ← make (Nda DFloat (Arr [3; 2] [VFloat (num_of_Z 1%Z); VFloat (NaN); VFloat (num_of_Z 3%Z); VFloat (num_of_Z 4%Z); VFloat (num_of_Z 5%Z); VFloat (num_of_Z 6%Z)])) None; m1 ← lar_of_gres (y ← make (Nda DBool (Arr [2] [VBool true; VBool false])) None; larry_getitem y (XSlice (Slice None None (Some (-1)%Z)))); larry_getitem y (XTuple [ISlice (Slice None None None); ILarry m1])) IndexError) = true.
Proof. by vm_compute. Qed.
(** la/tests/deflarry_getitem_test.py:272 *)
Example deflarry_getitem__test_getitem_30 :
  (larry_same (lar_of_gres (y ← y ← y ← make (Nda DFloat (Arr [3; 2] [VFloat (num_of_Z 1%Z); VFloat (NaN); VFloat (num_of_Z 3%Z); VFloat (num_of_Z 4%Z); VFloat (num_of_Z 5%Z); VFloat (num_of_Z 6%Z)])) None; Ok (Larry (lx y) (<[0 := [LStr "a"%string; LStr "b"%string; LStr "c"%string]]> (llabel y))); Ok (Larry (lx y) (<[1 := [LStr "A"%string; LStr "B"%string]]> (llabel y))); m ← make (Nda DBool (Arr [3] [VBool true; VBool false; VBool true])) (Some [[LStr "a"%string; LStr "b"%string; LStr "c"%string]]); larry_getitem y (XLarry m))) (lar_of_gres (y ← y ← y ← make (Nda DFloat (Arr [3; 2] [VFloat (num_of_Z 1%Z); VFloat (NaN); VFloat (num_of_Z 3%Z); VFloat (num_of_Z 4%Z); VFloat (num_of_Z 5%Z); VFloat (num_of_Z 6%Z)])) None; Ok (Larry (lx y) (<[0 := [LStr "a"%string; LStr "b"%string; LStr "c"%string]]> (llabel y))); Ok (Larry (lx y) (<[1 := [LStr "A"%string; LStr "B"%string]]> (llabel y))); larry_getitem y (XList [0%Z; 2%Z])))) = true.
Proof. by vm_compute. Qed.
(** la/tests/deflarry_getitem_test.py:286 *)
Example deflarry_getitem__test_getitem_31 :
  (larry_same (lar_of_gres (y ← y ← y ← make (Nda DFloat (Arr [3; 2] [VFloat (num_of_Z 1%Z); VFloat (NaN); VFloat (num_of_Z 3%Z); VFloat (num_of_Z 4%Z); VFloat (num_of_Z 5%Z); VFloat (num_of_Z 6%Z)])) None; Ok (Larry (lx y) (<[0 := [LStr "a"%string; LStr "b"%string; LStr "c"%string]]> (llabel y))); Ok (Larry (lx y) (<[1 := [LStr "A"%string; LStr "B"%string]]> (llabel y))); m1 ← make (Nda DBool (Arr [2] [VBool true; VBool false])) (Some [[LStr "A"%string; LStr "B"%string]]); larry_getitem y (XTuple [ISlice (Slice None None None); ILarry m1]))) (lar_of_gres (y ← y ← y ← make (Nda DFloat (Arr [3; 2] [VFloat (num_of_Z 1%Z); VFloat (NaN); VFloat (num_of_Z 3%Z); VFloat (num_of_Z 4%Z); VFloat (num_of_Z 5%Z); VFloat (num_of_Z 6%Z)])) None; Ok (Larry (lx y) (<[0 := [LStr "a"%string; LStr "b"%string; LStr "c"%string]]> (llabel y))); Ok (Larry (lx y) (<[1 := [LStr "A"%string; LStr "B"%string]]> (llabel y))); larry_getitem y (XTuple [ISlice (Slice None None None); IList [0%Z]])))) = true.
Proof. by vm_compute. Qed.
(** la/tests/deflarry_unary_test.py:136 *)
Example deflarry_unary__test_invert :
  (larry_same (y ← make (Nda DBool (Arr [2] [VBool true; VBool false])) None; larry_invert y) (make (Nda DBool (Arr [2] [VBool false; VBool true])) None)) = true.
Proof. by vm_compute. Qed.
(** la/tests/deflarry_unary_test.py:141 *)
Example deflarry_unary__test___invert__ :
  (larry_same (y ← make (Nda DBool (Arr [2] [VBool true; VBool false])) None; larry_invert y) (make (Nda DBool (Arr [2] [VBool false; VBool true])) None)) = true.
Proof. by vm_compute. Qed.
(** la/tests/deflarry_unary_test.py:148 *)
Example deflarry_unary__test_cumsum_raises :
  (raises (y ← make (Nda DInt (Arr [2] [VInt 0%Z; VInt 1%Z])) None; larry_cum CSum y None) ValueError) = true.
Proof. by vm_compute. Qed.
(** la/tests/deflarry_unary_test.py:153 *)
Example deflarry_unary__test_cumprod_raises :
  (raises (y ← make (Nda DInt (Arr [2] [VInt 0%Z; VInt 1%Z])) None; larry_cum CProd y None) ValueError) = true.
Proof. by vm_compute. Qed.
(** la/tests/deflarry_unary_test.py:158 *)
Example deflarry_unary__test_clip_raises :
  (raises (y ← make (Nda DInt (Arr [2] [VInt 0%Z; VInt 1%Z])) None; larry_clip y (VInt 3%Z) (VInt 2%Z)) ValueError) = true.
Proof. by vm_compute. Qed.
(** la/tests/deflarry_unary_test.py:163 *)
Example deflarry_unary__test_invert_raises :
  (raises (y ← make (Nda DInt (Arr [2] [VInt 0%Z; VInt 1%Z])) None; larry_invert y) TypeError) = true.
Proof. by vm_compute. Qed.
(** la/tests/empty_larry_test.py:205 *)
Example empty_larry__test_50 :
  (v_near (val_of_out (y ← make (Nda DInt (Arr [0] [])) None; larry_reduce RSum y (Some 0%Z))) (VFloat (NaN))) = true.
Proof. by vm_compute. Qed.
(** la/tests/lix_test.py:116 *)
Example lix__lix_setitem_test_01 :
  (larry_same (y ← lrange None (Some [[LStr "a"%string; LStr "b"%string]]) (VInt 0%Z) (VInt 1%Z) None; lix_set y (LxLabels [LStr "a"%string]) (SVal (VInt 9%Z))) (y ← lrange None (Some [[LStr "a"%string; LStr "b"%string]]) (VInt 0%Z) (VInt 1%Z) None; larry_setitem y (XInt 0%Z) (SVal (VInt 9%Z)))) = true.
Proof. by vm_compute. Qed.
(** la/tests/lix_test.py:123 *)
Example lix__lix_setitem_test_02 :
  (larry_same (y ← lrange None (Some [[LStr "a"%string; LStr "b"%string]; [LStr "c"%string; LStr "d"%string]]) (VInt 0%Z) (VInt 1%Z) None; lix_set y (LxLabels [LStr "a"%string]) (SVal (VInt 9%Z))) (y ← lrange None (Some [[LStr "a"%string; LStr "b"%string]; [LStr "c"%string; LStr "d"%string]]) (VInt 0%Z) (VInt 1%Z) None; larry_setitem y (XInt 0%Z) (SVal (VInt 9%Z)))) = true.
Proof. by vm_compute. Qed.
(** la/tests/lix_test.py:130 *)
Example lix__lix_setitem_test_03 :
  (larry_same (y ← lrange None (Some [[LStr "a"%string; LStr "b"%string]; [LStr "c"%string; LStr "d"%string]]) (VInt 0%Z) (VInt 1%Z) None; lix_set y (LxInt 0%Z) (SVal (VInt 9%Z))) (y ← lrange None (Some [[LStr "a"%string; LStr "b"%string]; [LStr "c"%string; LStr "d"%string]]) (VInt 0%Z) (VInt 1%Z) None; larry_setitem y (XInt 0%Z) (SVal (VInt 9%Z)))) = true.
Proof. by vm_compute. Qed.
(** la/tests/lix_test.py:137 *)
Example lix__lix_setitem_test_04 :
  (larry_same (y ← lrange None (Some [[LStr "a"%string; LStr "b"%string]; [LStr "c"%string; LStr "d"%string]]) (VInt 0%Z) (VInt 1%Z) None; lix_set y (LxSlice (LSlice (Some (ELab [LStr "a"%string])) (Some (ELab [LStr "b"%string])) None)) (SVal (VInt 9%Z))) (y ← lrange None (Some [[LStr "a"%string; LStr "b"%string]; [LStr "c"%string; LStr "d"%string]]) (VInt 0%Z) (VInt 1%Z) None; larry_setitem y (XSlice (Slice (Some 0%Z) (Some 1%Z) None)) (SVal (VInt 9%Z)))) = true.
Proof. by vm_compute. Qed.
(** la/tests/lix_test.py:144 *)
Example lix__lix_setitem_test_05 :
  (larry_same (y ← lrange None (Some [[LStr "a"%string; LStr "b"%string]; [LStr "c"%string; LStr "d"%string]]) (VInt 0%Z) (VInt 1%Z) None; lix_set y (LxTuple [LLabels [LStr "b"%string]; LLabels [LStr "d"%string]]) (SVal (VInt 9%Z))) (y ← lrange None (Some [[LStr "a"%string; LStr "b"%string]; [LStr "c"%string; LStr "d"%string]]) (VInt 0%Z) (VInt 1%Z) None; larry_setitem y (XTuple [IInt 1%Z; IInt 1%Z]) (SVal (VInt 9%Z)))) = true.
Proof. by vm_compute. Qed.
(** la/tests/lix_test.py:151 *)
Example lix__lix_setitem_test_06 :
  (larry_same (y ← lrange None (Some [[LStr "a"%string; LStr "b"%string; LStr "c"%string]; [LStr "1"%string; LStr "2"%string; LStr "3"%string]]) (VInt 0%Z) (VInt 1%Z) None; lix_set y (LxTuple [LLabels [LStr "a"%string; LStr "b"%string]; LLabels [LStr "1"%string; LStr "2"%string]]) (SVal (VInt 9%Z))) (y ← lrange None (Some [[LStr "a"%string; LStr "b"%string; LStr "c"%string]; [LStr "1"%string; LStr "2"%string; LStr "3"%string]]) (VInt 0%Z) (VInt 1%Z) None; larry_setitem y (XTuple [ISlice (Slice None (Some 2%Z) None); ISlice (Slice None (Some 2%Z) None)]) (SVal (VInt 9%Z)))) = true.
Proof. by vm_compute. Qed.
(** la/tests/lix_test.py:165 *)
Example lix__lix_setitem_test_08 :
  (larry_same (y ← lrange None (Some [[LStr "a"%string; LStr "b"%string]; [LStr "c"%string; LStr "d"%string]]) (VInt 0%Z) (VInt 1%Z) None; z ← make (Nda DInt (Arr [2] [VInt 9%Z; VInt 10%Z])) (Some [[LStr "c"%string; LStr "d"%string]]); lix_set y (LxLabels [LStr "a"%string]) (SLarry z)) (y ← lrange None (Some [[LStr "a"%string; LStr "b"%string]; [LStr "c"%string; LStr "d"%string]]) (VInt 0%Z) (VInt 1%Z) None; larry_setarray y (XInt 0%Z) (Nda DInt (Arr [2] [VInt 9%Z; VInt 10%Z])))) = true.
Proof. by vm_compute. Qed.
(** la/tests/lix_test.py:180 *)
Example lix__lix_setitem_test_10 :
  (larry_same (y ← lrange None (Some [[LStr "a"%string; LStr "b"%string]; [LStr "c"%string; LStr "d"%string]]) (VInt 0%Z) (VInt 1%Z) None; z ← make (Nda DInt (Arr [2; 1] [VInt 9%Z; VInt 10%Z])) (Some [[LStr "a"%string; LStr "b"%string]; [LStr "d"%string]]); lix_set y (LxTuple [LSl (LSlice None None None); LLabels [LStr "d"%string]]) (SLarry z)) (y ← lrange None (Some [[LStr "a"%string; LStr "b"%string]; [LStr "c"%string; LStr "d"%string]]) (VInt 0%Z) (VInt 1%Z) None; larry_setarray y (XTuple [ISlice (Slice None None None); IInt (-1)%Z]) (Nda DInt (Arr [2] [VInt 9%Z; VInt 10%Z])))) = true.
Proof. by vm_compute. Qed.
