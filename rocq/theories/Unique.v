(** [unique] (la/flarry.py:1272-1337), which is [np.unique] of numpy 1.6 to 1.8. *)
From stdpp Require Import sorting.
From Verif Require Export SpecUnique Create.

(** [aux[1:] != aux[:-1]], of two elements of one array. *)
Definition val_ne (v w : val) : bool := bool_decide (v <> w) || bool_decide (v = VFloat NaN).
(** [l[flag]]. *)
Definition compress {A} (flag : list bool) (l : list A) : list A :=
  (filter (fun p : bool * A => p.1 = true) (zip flag l)).*2.
(** [np.cumsum(flag)]. *)
Fixpoint cumsum_from (k : nat) (flag : list bool) : list nat :=
  match flag with
  | [] => []
  | b :: flag => (k + if b then 1 else 0) :: cumsum_from (k + if b then 1 else 0) flag
  end.
(** The values, the indices if asked for, the inverse if asked for.
    [stable] and [quick] are the two kinds of [argsort].  Simplification: object
    arrays are not sorted. *)
Definition unique (stable quick : list val -> list nat) (y : larry) (return_index return_inverse : bool) :
    res (list val * option (list nat) * option (list nat)) :=
  let ar := data (larr y) in
  if decide (ldtype y = DObj) then Err TypeError
  else if decide (ar = []) then
    Ok ([], if return_index then Some [] else None, if return_inverse then Some [] else None)
  else
    let perm := if return_index then stable ar else quick ar in
    aux ← of_opt IndexError (mapM (ar !!.) perm);
    let flag := true :: zip_with val_ne (tail aux) aux in
    inverse ← (if return_inverse then
                 let iflag := pred <$> cumsum_from 0 flag in
                 let iperm := np_argsort ((fun k => VInt (Z.of_nat k)) <$> perm) in
                 l ← of_opt IndexError (mapM (iflag !!.) iperm); Ok (Some l)
               else Ok None);
    Ok (compress flag aux, if return_index then Some (compress flag perm) else None, inverse).

(** A stable [argsort]: equal elements in the order of their positions. *)
Definition stable_order (p q : val * nat) : Prop := pair_order p q /\ (pair_order q p -> p.2 <= q.2).
Global Instance stable_order_dec p q : Decision (stable_order p q).
Proof. unfold stable_order. apply _. Defined.
Definition stable_argsort (vs : list val) : list nat :=
  map snd (merge_sort stable_order (zip vs (seq 0 (length vs)))).
