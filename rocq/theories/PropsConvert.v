(** Properties C25 and C26: flattening and conversions (la/deflarry.py,
    la/util/misc.py). *)
From Verif Require Import ConvertFacts.
From Verif Require Import PropsLarry PropsAlign PropsOps PropsNumeric PropsIndex.
From Coq Require Import Sorted.

(** C25: flatten and unflatten. *)
Theorem C25_flatten : forall y order,
  valid y -> order = "C" \/ order = "F" -> exists z, larry_flatten y order = Ok z /\ flattened y z.
Proof. exact flatten_spec. Qed.
(** The labels come in the order of the flattened data. *)
Theorem C25_flatten_order : forall y z order k t,
  larry_flatten y order = Ok z ->
  (exists l, llabel z !! 0 = Some l /\ l !! k = Some (LTup t)) <->
  exists idx, labels_at (llabel y) idx t /\
    k = (if decide (order = "C") then ravel (length <$> llabel y) idx
         else ravel (reverse (length <$> llabel y)) (reverse idx)).
Proof. exact flatten_order. Qed.
Theorem C25_flatten_error : forall y order,
  order <> "C" -> order <> "F" -> larry_flatten y order = Err ValueError.
Proof. exact flatten_bad. Qed.
Theorem C25_unflatten : forall y order,
  valid y -> order = "C" \/ order = "F" -> ldtype y = DFloat \/ ldtype y = DInt ->
  lsize y <> 0 -> (forall l, l ∈ llabel y -> all_comparable l) ->
  exists z, (yf ← larry_flatten y order; larry_unflatten yf) = Ok z /\ sorted_copy y z.
Proof. exact unflatten_flatten. Qed.
(** Any 1d larry whose labels are tuples of one length can be unflattened. *)
Theorem C25_unflatten_any : forall y rows k,
  valid y -> llabel y = [LTup <$> rows] -> rows <> [] -> k <> 0 -> Forall (fun r => length r = k) rows ->
  ldtype y = DFloat \/ ldtype y = DInt ->
  (forall p q j a b, p ∈ rows -> q ∈ rows -> p !! j = Some a -> q !! j = Some b -> a = b \/ comparable a b = true) ->
  exists z, larry_unflatten y = Ok z /\ length (llabel z) = k /\ tabulates (zip rows (data (larr y))) z.
Proof. exact unflatten_any. Qed.
(** A float larry with sorted labels comes back unchanged; this also holds for
    the conversions below. *)
Theorem C25_unflatten_equal : forall y z,
  valid y -> ldtype y = DFloat -> (forall l, l ∈ llabel y -> StronglySorted lab_lt l) -> sorted_copy y z -> z = y.
Proof. exact sorted_copy_eq. Qed.
(** Without elements the labels are lost, and bools and strings are refused. *)
Theorem C25_unflatten_empty : forall y order,
  valid y -> order = "C" \/ order = "F" -> lsize y = 0 ->
  (yf ← larry_flatten y order; larry_unflatten yf) = Ok empty_larry.
Proof. exact unflatten_flatten_empty. Qed.
Theorem C25_unflatten_error : forall y order,
  valid y -> order = "C" \/ order = "F" -> lsize y <> 0 -> ldtype y = DBool \/ ldtype y = DStr ->
  (yf ← larry_flatten y order; larry_unflatten yf) = Err NotImplementedError.
Proof. exact unflatten_flatten_bad. Qed.
Example C25_example :
  larry_flatten ex2 "F" =
    Ok (Larry (Nda DInt (Arr [6] (VInt <$> [1; 4; 2; 5; 3; 6]%Z)))
          [[LTup [LStr "x"; LInt 7]; LTup [LStr "y"; LInt 7]; LTup [LStr "x"; LInt 9];
            LTup [LStr "y"; LInt 9]; LTup [LStr "x"; LInt 5]; LTup [LStr "y"; LInt 5]]]) /\
  (yf ← larry_flatten ex2 "F"; larry_unflatten yf) =
    Ok (Larry (Nda DFloat (Arr [2; 3] [vf 3; vf 1; vf 2; vf 6; vf 4; vf 5]))
          [[LStr "x"; LStr "y"]; [LInt 5; LInt 7; LInt 9]]) /\
  (yf ← larry_flatten exb "C"; larry_unflatten yf) = Err NotImplementedError /\
  (yf ← larry_flatten exz "C"; larry_unflatten yf) = Ok empty_larry /\
  larry_unflatten ex2 = Err ValueError /\ larry_flatten ex2 "A" = Err ValueError.
Proof. by_compute. Qed.

(** C26: conversions.  Any list of labelled values: *)
Theorem C26_fromtuples : forall d k,
  d <> [] -> k <> 0 -> Forall (fun p => length p.1 = k) d -> Forall (fun p => is_numeric p.2) d ->
  (forall p q j a b, p ∈ d -> q ∈ d -> p.1 !! j = Some a -> q.1 !! j = Some b -> a = b \/ comparable a b = true) ->
  exists z, larry_fromtuples d = Ok z /\ length (llabel z) = k /\ tabulates d z.
Proof. exact fromtuples_ok. Qed.
Theorem C26_fromlist : forall rows xs k,
  rows <> [] -> k <> 0 -> Forall (fun r => length r = k) rows -> length xs = length rows -> Forall is_numeric xs ->
  (forall p q j a b, p ∈ rows -> q ∈ rows -> p !! j = Some a -> q !! j = Some b -> a = b \/ comparable a b = true) ->
  exists z, larry_fromlist (Some (xs, rows)) = Ok z /\ length (llabel z) = k /\ tabulates (zip rows xs) z.
Proof. exact fromlist_any. Qed.
(** Another number of values is an error, but a single value is used for all
    labels. *)
Theorem C26_length : forall rows xs k,
  rows <> [] -> k <> 0 -> Forall (fun r => length r = k) rows -> Forall is_numeric xs ->
  (forall p q j a b, p ∈ rows -> q ∈ rows -> p !! j = Some a -> q !! j = Some b -> a = b \/ comparable a b = true) ->
  length xs <> length rows -> length xs <> 1 -> larry_fromlist (Some (xs, rows)) = Err ValueError.
Proof. exact fromlist_length. Qed.
Theorem C26_single : forall rows v k,
  rows <> [] -> k <> 0 -> Forall (fun r => length r = k) rows -> is_numeric v ->
  (forall p q j a b, p ∈ rows -> q ∈ rows -> p !! j = Some a -> q !! j = Some b -> a = b \/ comparable a b = true) ->
  exists z, larry_fromlist (Some ([v], rows)) = Ok z /\ length (llabel z) = k /\ tabulates ((fun r => (r, v)) <$> rows) z.
Proof. exact fromlist_single. Qed.
(** Round trips. *)
Theorem C26_tuples : forall y,
  valid y -> numeric_dtype (ldtype y) -> lsize y <> 0 -> (forall l, l ∈ llabel y -> all_comparable l) ->
  exists z, (d ← larry_totuples y; larry_fromtuples d) = Ok z /\ sorted_copy y z.
Proof. exact fromtuples_totuples. Qed.
Theorem C26_list : forall y,
  valid y -> numeric_dtype (ldtype y) -> lsize y <> 0 -> (forall l, l ∈ llabel y -> all_comparable l) ->
  exists z, (d ← larry_tolist y; larry_fromlist (Some d)) = Ok z /\ sorted_copy y z.
Proof. exact fromlist_tolist. Qed.
(** The order in which the dictionary lists its entries does not matter. *)
Theorem C26_dict : forall y,
  valid y -> numeric_dtype (ldtype y) -> lsize y <> 0 -> (forall l, l ∈ llabel y -> all_comparable l) ->
  exists d, larry_todict y = Ok d /\ NoDup d.*1 /\ (forall ls v, (ls, v) ∈ d <-> cell y ls = Some v) /\
  forall d', d' ≡ₚ d -> exists z, larry_fromdict d' = Ok z /\ sorted_copy y z.
Proof. exact fromdict_todict. Qed.
Theorem C26_equal : forall y z,
  valid y -> ldtype y = DFloat -> (forall l, l ∈ llabel y -> StronglySorted lab_lt l) -> sorted_copy y z -> z = y.
Proof. exact sorted_copy_eq. Qed.
Theorem C26_empty : forall y,
  valid y -> lsize y = 0 ->
  (d ← larry_tolist y; larry_fromlist (Some d)) = Ok empty_larry /\
  (d ← larry_totuples y; larry_fromtuples d) = Ok empty_larry /\
  (d ← larry_todict y; larry_fromdict d) = Ok empty_larry.
Proof. exact convert_empty. Qed.
Example C26_example :
  larry_fromtuples [([LStr "b"; LInt 2], VInt 1); ([LStr "a"; LInt 1], VInt 2);
                    ([LStr "b"; LInt 2], VInt 3)] =
    Ok (Larry (Nda DFloat (Arr [2; 2] [vf 2; VFloat NaN; VFloat NaN; vf 3])) [[LStr "a"; LStr "b"]; [LInt 1; LInt 2]]) /\
  larry_totuples ex1 = Ok [([LStr "b"], vf 10); ([LStr "a"], vf 20); ([LStr "c"], vf 30)] /\
  (d ← larry_totuples ex1; larry_fromtuples d) =
    Ok (Larry (Nda DFloat (Arr [3] [vf 20; vf 10; vf 30])) [[LStr "a"; LStr "b"; LStr "c"]]) /\
  larry_fromlist (Some ([VInt 1; VInt 2], [[LStr "a"]; [LStr "b"]; [LStr "c"]])) = Err ValueError /\
  larry_fromlist (Some ([VInt 1], [[LStr "b"]; [LStr "a"]])) = Ok (Larry (Nda DFloat (Arr [2] [vf 1; vf 1])) [[LStr "a"; LStr "b"]]) /\
  (d ← larry_todict ex1; larry_fromdict (reverse d)) = (d ← larry_tolist ex1; larry_fromlist (Some d)).
Proof. by_compute. Qed.

Print Assumptions C25_flatten.
Print Assumptions C25_flatten_order.
Print Assumptions C25_flatten_error.
Print Assumptions C25_unflatten.
Print Assumptions C25_unflatten_any.
Print Assumptions C25_unflatten_equal.
Print Assumptions C25_unflatten_empty.
Print Assumptions C25_unflatten_error.
Print Assumptions C26_fromtuples.
Print Assumptions C26_fromlist.
Print Assumptions C26_length.
Print Assumptions C26_single.
Print Assumptions C26_tuples.
Print Assumptions C26_list.
Print Assumptions C26_dict.
Print Assumptions C26_equal.
Print Assumptions C26_empty.
