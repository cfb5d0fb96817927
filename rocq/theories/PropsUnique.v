(** C79: the unique elements of a larry (la/flarry.py:1272-1337). *)
From Verif Require Import PropsLarry PropsOps PropsNumeric UniqueFacts.

(** The elements in order, each once; the indices point at the first
    occurrences, the inverse gives the data back. *)
Theorem C79_unique : forall stable quick y ri rv, valid y -> ldtype y <> DObj ->
  argsorts_stable (data (larr y)) (stable (data (larr y))) -> argsorts (data (larr y)) (quick (data (larr y))) ->
  exists us idx inv, unique stable quick y ri rv = Ok (us, idx, inv) /\ unique_of (data (larr y)) us /\
    (if ri then exists is, idx = Some is /\ mapM (data (larr y) !!.) is = Some us /\
       forall k i v j, is !! k = Some i -> us !! k = Some v -> v <> VFloat NaN -> data (larr y) !! j = Some v -> i <= j
     else idx = None) /\
    (if rv then exists is, inv = Some is /\ mapM (us !!.) is = Some (data (larr y)) else inv = None).
Proof. exact unique_spec. Qed.
(** There are such sorts. *)
Theorem C79_sorts : forall dt vs, dt <> DObj -> Forall (fun v => has_dtype dt v = true) vs ->
  argsorts_stable vs (stable_argsort vs) /\ argsorts vs (np_argsort vs).
Proof. exact (fun dt vs Hd H => conj (stable_argsort_good dt vs Hd H) (np_argsort_good dt vs Hd H)). Qed.
(** Without NaN the elements are unique, and they do not depend on what else
    is asked for. *)
Theorem C79_no_nan : forall stable quick y ri rv us idx inv, valid y -> ldtype y <> DObj ->
  argsorts_stable (data (larr y)) (stable (data (larr y))) -> argsorts (data (larr y)) (quick (data (larr y))) ->
  VFloat NaN ∉ data (larr y) -> unique stable quick y ri rv = Ok (us, idx, inv) ->
  NoDup us /\ StronglySorted val_le us /\ (forall v, v ∈ us <-> v ∈ data (larr y)).
Proof. exact unique_no_nan. Qed.

(** The documentation: the unique elements.  NaN is not equal to itself. *)
Theorem C79_nan_refuted : exists y us, valid y /\ unique stable_argsort np_argsort y false false = Ok (us, None, None) /\ ~ NoDup us.
Proof.
  exists (Larry (Nda DFloat (Arr [3] [VFloat NaN; vf 1; VFloat NaN])) [[LInt 0; LInt 1; LInt 2]]), [vf 1; VFloat NaN; VFloat NaN].
  split_and!; [solve_valid|by vm_compute|]. intros H. apply NoDup_cons in H as [_ H]. apply NoDup_cons in H as [H _]. apply H. by left.
Qed.

(** The examples of the documentation. *)
Definition ex_ints (l : list Z) : larry := Larry (Nda DInt (Arr [length l] (VInt <$> l))) [(LInt ∘ Z.of_nat) <$> seq 0 (length l)].
Definition ex_strs (l : list string) : larry := Larry (Nda DStr (Arr [length l] (VStr <$> l))) [(LInt ∘ Z.of_nat) <$> seq 0 (length l)].
Example C79_unique_ex :
  valid (ex_ints [1; 1; 2; 2; 3; 3]%Z) /\
  unique stable_argsort np_argsort (ex_ints [1; 1; 2; 2; 3; 3]%Z) false false = Ok (VInt <$> [1; 2; 3]%Z, None, None) /\
  unique stable_argsort np_argsort (ex_strs ["a"; "b"; "b"; "c"; "a"]%string) true false =
    Ok (VStr <$> ["a"; "b"; "c"]%string, Some [0; 1; 3], None) /\
  unique stable_argsort np_argsort (ex_ints [1; 2; 6; 4; 2; 3; 2]%Z) false true =
    Ok (VInt <$> [1; 2; 3; 4; 6]%Z, None, Some [0; 1; 4; 3; 1; 2; 1]) /\
  unique stable_argsort np_argsort ex2 true true = Ok (VInt <$> [1; 2; 3; 4; 5; 6]%Z, Some [0; 1; 2; 3; 4; 5], Some [0; 1; 2; 3; 4; 5]).
Proof. split_and!; [solve_valid|by vm_compute..]. Qed.
Example C79_sorts_ex : stable_argsort (VInt <$> [2; 1; 2; 1]%Z) = [1; 3; 0; 2].
Proof. by vm_compute. Qed.
Example C79_no_nan_ex : VFloat NaN ∉ data (larr ex1) /\
  unique stable_argsort np_argsort ex1 false false = Ok ([vf 10; vf 20; vf 30], None, None).
Proof. split; [refine (bool_decide_unpack _ _)|]; by vm_compute. Qed.

Print Assumptions C79_unique.
Print Assumptions C79_sorts.
Print Assumptions C79_no_nan.
Print Assumptions C79_nan_refuted.
