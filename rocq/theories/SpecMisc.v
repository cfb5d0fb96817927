(** Specification of keep_x, decayed ranking, geometric mean and correlation. *)
From Verif Require Export SpecFarray.

(** [z] is the float larry [y] with every cell that does not satisfy the
    comparison with [value] replaced by NaN. *)
Definition kept_cells (op : cmp_op) (value : val) (y z : larry) : Prop :=
  valid z /\ ldtype z = ldtype y /\ llabel z = llabel y /\
  forall ls v, cell y ls = Some v ->
    (cmp_holds op v value -> cell z ls = Some v) /\ (~ cmp_holds op v value -> cell z ls = Some (VFloat NaN)).

(** The sign of [n] against [m]: 1 if [n] is greater, -1 if it is less, else 0. *)
Definition against (n m : num) : Qc :=
  if decide (num_lt m n) then 1%Qc else if decide (num_lt n m) then (-(1))%Qc else 0%Qc.
Definition Qc_total (l : list Qc) : Qc := foldr Qcplus 0%Qc l.
(** [q] is the weighted mean of the signs of [n] against the numbers, NaNs left
    out; [ws] are the weights. *)
Definition weighted_rank (n : num) (ns : list num) (ws : list Qc) (q : Qc) : Prop :=
  let other := filter (fun p => p.1 <> NaN) (zip ns ws) in
  Qc_total other.*2 <> 0%Qc /\
  (q * Qc_total other.*2 = Qc_total ((fun p => against n p.1 * p.2) <$> other))%Qc.
(** The exponentially decayed weights of the elements of a lane before the
    last: the element [d] positions before the last has weight [w d]. *)
Definition decayed (w : nat -> Qc) (ns : list num) : list Qc :=
  (fun k => w (length ns - 1 - k)) <$> seq 0 (length ns - 1).
(** The decayed rank of the last number of [ns]. *)
Definition decay_ranked (w : nat -> Qc) (ns : list num) (m : num) : Prop :=
  exists n, last ns = Some n /\
    if decide (n = NaN) then m = NaN
    else if decide (length (present ns) = 1) then m = NaN
    else exists q, m = Fin q /\ weighted_rank n (take (length ns - 1) ns) (decayed w ns) q.
(** [exp (- decay * d)] as a weight. *)
Definition weight_of (exp : num -> num) (decay : Qc) (d : nat) (w : Qc) : Prop :=
  exp (Fin (- decay * Qc_of_Z (Z.of_nat d))%Qc) = Fin w /\ (0 < w)%Qc.

(** The geometric mean: the exponential of the mean logarithm. *)
Definition geometric (log exp : num -> num) (ns : list num) (m : num) : Prop :=
  if decide (present ns = []) then m = NaN
  else m = exp (mean_of (log <$> present ns)).

(** The pairs of numbers of two lanes where neither is NaN. *)
Definition both_present (us vs : list num) : list (num * num) :=
  filter (fun p => p.1 <> NaN /\ p.2 <> NaN) (zip us vs).
Definition deviations (ns : list num) : list num := (fun n => num_sub n (mean_of ns)) <$> ns.
Definition dot_of (us vs : list num) : num := num_total (zip_with num_mul us vs).
(** [c] is the correlation of [us] and [vs]. *)
Definition correlated (sqrt : num -> num) (us vs : list num) (c : num) : Prop :=
  let ps := both_present us vs in
  let d1 := deviations ps.*1 in
  let d2 := deviations ps.*2 in
  if decide (ps = []) then c = NaN
  else c = num_div (dot_of d1 d2) (sqrt (num_mul (dot_of d1 d1) (dot_of d2 d2))).

(** The elements of an array along axis [ax] at the position [idx] of the
    other axes. *)
Definition array_lane (a : arr val) (ax : nat) (idx : list nat) (vs : list val) : Prop :=
  shape a !! ax = Some (length vs) /\
  forall k v, vs !! k = Some v -> aget a (take ax idx ++ k :: drop ax idx) = Some v.
(** [r] is the reduction of a pair of arrays along an axis, or of all
    elements, by [R]. *)
Definition pair_reduction (R : list num -> list num -> num -> Prop) (x1 x2 : nda) (axis : option nat) (r : nda) : Prop :=
  nda_wf r /\ nd_dtype r = DFloat /\
  match axis with
  | None => nd_shape r = [] /\ exists ns1 ns2 c, numbers (data (nd_arr x1)) ns1 /\ numbers (data (nd_arr x2)) ns2 /\
      aget (nd_arr r) [] = Some (VFloat c) /\ R ns1 ns2 c
  | Some ax => nd_shape r = delete ax (nd_shape x1) /\
      forall idx v, aget (nd_arr r) idx = Some v -> exists vs1 vs2 ns1 ns2 c,
        array_lane (nd_arr x1) ax idx vs1 /\ array_lane (nd_arr x2) ax idx vs2 /\
        numbers vs1 ns1 /\ numbers vs2 ns2 /\ v = VFloat c /\ R ns1 ns2 c
  end.
(** The axis [ax] of an array that the Python axis argument [a] stands for. *)
Definition array_axis (x : nda) (a : Z) (ax : nat) : Prop :=
  ax < nd_ndim x /\ (a = Z.of_nat ax \/ a = (Z.of_nat ax - Z.of_nat (nd_ndim x))%Z).
(** Float or int, complete and typed. *)
Definition numeric_array (x : nda) : Prop := nda_wf x /\ (nd_dtype x = DFloat \/ nd_dtype x = DInt).
(** A square root: exact on squares of rationals. *)
Definition root_of (sqrt : num -> num) : Prop :=
  forall q, (0 <= q)%Qc -> sqrt (Fin (q * q)%Qc) = Fin q.
(** A square root that is never below the true root. *)
Definition root_above (sqrt : num -> num) : Prop :=
  forall q, (0 <= q)%Qc -> exists r, sqrt (Fin q) = Fin r /\ (0 <= r)%Qc /\ (q <= r * r)%Qc.
(** All numbers of a list are equal. *)
Definition all_equal (ns : list num) : Prop := forall a b, a ∈ ns -> b ∈ ns -> a = b.
