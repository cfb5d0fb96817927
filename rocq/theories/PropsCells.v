(** C104: a larry is a table with one element for each combination of labels. *)
From Verif Require Import SpecFacts PropsLarry PropsOps PropsAlign Align.
From Verif Require Import CellsFacts.

Theorem C104_valid : forall dt sh xs L, valid (Larry (Nda dt (Arr sh xs)) L) <->
  L <> [] /\ sh = length <$> L /\ Forall NoDup L /\ length xs = length (combinations L) /\ Forall (of_type dt) xs.
Proof. exact table_valid. Qed.
Theorem C104_combinations : forall L ls, ls ∈ combinations L <-> in_grid L ls.
Proof. exact combinations_grid. Qed.
Theorem C104_one : forall y ls, valid y -> (exists v, cell y ls = Some v) <-> in_grid (llabel y) ls.
Proof. exact table_one. Qed.
(** The array has the elements in C order. *)
Theorem C104_order : forall y, valid y -> Forall2 (fun ls v => cell y ls = Some v) (combinations (llabel y)) (data (larr y)).
Proof. exact table_cells. Qed.
Theorem C104_type : forall y ls v, valid y -> cell y ls = Some v -> of_type (ldtype y) v.
Proof. exact table_type. Qed.
(** The casts of morph: ints and bools become the same numbers as floats if
    there are new labels, other elements stay as they are. *)
Theorem C104_promoted : forall y label axis z, valid y -> morph y label axis = Ok z -> ldtype y = DInt \/ ldtype y = DBool -> ldtype z <> ldtype y ->
  ldtype z = DFloat /\ forall ls v, in_grid (llabel z) ls -> cell y ls = Some v -> exists w, cell z ls = Some w /\ same_number v w.
Proof. exact morph_promoted. Qed.
Theorem C104_kept : forall y label axis z, valid y -> morph y label axis = Ok z -> ldtype z = ldtype y ->
  forall ls v, in_grid (llabel z) ls -> cell y ls = Some v -> cell z ls = Some v.
Proof. exact morph_kept. Qed.

Example C104_ex :
  combinations (llabel ex2) = [[LStr "x"; LInt 7]; [LStr "x"; LInt 9]; [LStr "x"; LInt 5]; [LStr "y"; LInt 7]; [LStr "y"; LInt 9]; [LStr "y"; LInt 5]] /\
  data (larr ex2) = [VInt 1; VInt 2; VInt 3; VInt 4; VInt 5; VInt 6] /\
  cell ex2 [LStr "y"; LInt 7] = Some (VInt 4) /\ cell ex2 [LStr "y"; LInt 8] = None /\
  (z ← morph exb [LStr "a"; LStr "z"] 0; Ok (ldtype z)) = Ok DFloat.
Proof. by_compute. Qed.

Print Assumptions C104_valid.
Print Assumptions C104_combinations.
Print Assumptions C104_one.
Print Assumptions C104_order.
Print Assumptions C104_type.
Print Assumptions C104_promoted.
Print Assumptions C104_kept.
