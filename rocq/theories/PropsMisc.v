(** Properties C66 to C70: keep_x, lastrank with decay, correlation,
    geometric_mean and the elementwise functions. *)
From Verif Require Import Misc MiscFacts.
From Verif Require Import PropsLarry PropsAlign PropsOps PropsNumeric PropsIndex PropsFarray.

(** C66: keep_x. *)
Theorem C66_keeps : forall y op value,
  valid y -> ldtype y = DFloat -> is_Some (to_num value) ->
  exists z, keep_x y (Some op) value false = Ok z /\ kept_cells op value y z.
Proof. exact keep_x_plain. Qed.
Theorem C66_vacuum : forall y op value,
  valid y -> ldtype y = DFloat -> is_Some (to_num value) -> lndim y = 2 ->
  exists x z, keep_x y (Some op) value true = Ok z /\ kept_cells op value y x /\ cut_down (slice_finite x) (fun _ => True) x z.
Proof. exact keep_x_vacuum. Qed.
Theorem C66_error : forall y op value,
  (lndim y <> 2 -> keep_x y op value true = Err ValueError) /\ keep_x y None value false = Err ValueError.
Proof. exact keep_x_error. Qed.
(** Infinite elements that satisfy the condition are removed by the vacuum. *)
Theorem C66_refuted : exists y z, valid y /\ ldtype y = DFloat /\ lndim y = 2 /\
  keep_x y (Some CGt) (VInt 0) true = Ok z /\
  exists ls v, cell y ls = Some v /\ cmp_holds CGt v (VInt 0) /\ cell z ls = None.
Proof. exact keep_x_infinity. Qed.
(** An int larry always raises. *)
Theorem C66_int_refuted : forall y op value vac,
  valid y -> ldtype y = DInt -> is_Some (to_num value) -> keep_x y (Some op) value vac = Err ValueError.
Proof. exact keep_x_int. Qed.
(** In a bool larry every element becomes True. *)
Theorem C66_bool_refuted : exists y z ls v, valid y /\ ldtype y = DBool /\
  keep_x y (Some CEq) (VBool true) false = Ok z /\
  cell y ls = Some v /\ ~ cmp_holds CEq v (VBool true) /\ cell z ls = Some (VBool true).
Proof. exact keep_x_bool. Qed.
Example C66_example :
  keep_x exm (Some CGt) (VInt 1) true =
    Ok (Larry (Nda DFloat (Arr [2; 3] [VFloat NaN; VFloat NaN; vf 3; vf 4; vf 5; VFloat NaN])) [[LStr "a"; LStr "b"]; [LInt 1; LInt 2; LInt 3]]) /\
  keep_x exm (Some CGt) (VInt 3) true =
    Ok (Larry (Nda DFloat (Arr [1; 2] [vf 4; vf 5])) [[LStr "b"]; [LInt 1; LInt 2]]) /\
  keep_x exm (Some CNe) (vf 1) false =
    Ok (Larry (Nda DFloat (Arr [2; 3] [VFloat NaN; VFloat NaN; vf 3; vf 4; vf 5; vf (-6)])) [[LStr "a"; LStr "b"]; [LInt 1; LInt 2; LInt 3]]) /\
  keep_x exi (Some CGt) (VInt 0) false = Err ValueError.
Proof. by_compute. Qed.

(** C67: lastrank with decay.  [exp] is any function, [w d] its value at
    [- decay * d]. *)
Theorem C67_lanes : forall exp d w y a ax,
  (0 < d)%Qc -> (forall k, weight_of exp d k (w k)) ->
  valid y -> numeric_larry y -> nonempty y -> axis_is y a ax ->
  exists o, larry_lastrank_decay exp y a (Fin d) = Ok o /\
    reduction_by (fun vs v => exists ns m, numbers vs ns /\ v = VFloat m /\ (no_infinity ns -> decay_ranked w ns m)) y (Some a) o.
Proof. exact lastrank_decay_total. Qed.
Theorem C67_bounds : forall w ns q,
  (forall k, (0 < w k)%Qc) -> decay_ranked w ns (Fin q) ->
  (-(1) <= q <= 1)%Qc /\ exists ms n, ns = ms ++ [n] /\
  (q = 1%Qc <-> forall m, m ∈ ms -> m <> NaN -> num_lt m n) /\ (q = (-(1))%Qc <-> forall m, m ∈ ms -> m <> NaN -> num_lt n m).
Proof. exact decay_ranked_bounds. Qed.
Theorem C67_nearer_weighs_more : forall exp d j k wj wk,
  (forall a b, (a < b)%Qc -> num_lt (exp (Fin a)) (exp (Fin b))) -> (0 < d)%Qc -> j < k ->
  weight_of exp d j wj -> weight_of exp d k wk -> (wk < wj)%Qc.
Proof. exact weights_decrease. Qed.
Theorem C67_no_decay : forall exp y a, larry_lastrank_decay exp y a (num_of_Z 0) = larry_lastrank y a.
Proof. exact lastrank_decay_zero. Qed.
Theorem C67_axis : forall exp y a d,
  valid y -> (forall ax, ~ axis_is y a ax) -> larry_lastrank_decay exp y a d = Err IndexError.
Proof. exact lastrank_decay_axis. Qed.
Theorem C67_error : forall exp y a ax d,
  valid y -> axis_is y a ax -> lsize y <> 0 -> (d < 0)%Qc -> larry_lastrank_decay exp y a (Fin d) = Err ValueError.
Proof. exact lastrank_decay_negative. Qed.
Example C67_weights : forall k, weight_of halving 1 k (Qcpower (Q2Qc (1 # 2)) k).
Proof. exact halving_weights. Qed.
Example C67_example :
  larry_lastrank_decay halving exm 1 (num_of_Z 1) = Ok (OLar (Larry (Nda DFloat (Arr [2] [vf 1; vf (-1)])) [[LStr "a"; LStr "b"]])) /\
  larry_lastrank_decay halving (Larry (Nda DFloat (Arr [4] [vf 5; vf 2; VFloat NaN; vf 3])) [[LInt 1; LInt 2; LInt 3; LInt 4]]) 0 (num_of_Z 1) = Ok (OVal (vq 1 3)) /\
  larry_lastrank_decay halving exm 1 (num_of_Z (-1)) = Err ValueError /\ larry_lastrank_decay halving exm 2 (num_of_Z (-1)) = Err IndexError.
Proof. by_compute. Qed.

(** C68: correlation, for every square root that is exact on squares. *)
Theorem C68_lanes : forall sqrt x1 x2 (axis : option (Z * nat)),
  root_of sqrt -> numeric_array x1 -> numeric_array x2 -> nd_shape x1 = nd_shape x2 ->
  match axis with
  | None => True
  | Some (a, ax) => array_axis x1 a ax /\ (nd_ndim x1 = 1 -> a = 0%Z) /\
      ((nd_dtype x1 = DFloat /\ nd_dtype x2 = DFloat) \/ (VFloat NaN ∉ data (nd_arr x1) /\ VFloat NaN ∉ data (nd_arr x2)))
  end ->
  exists r, correlation sqrt x1 x2 (fst <$> axis) = Ok r /\
    pair_reduction (fun us vs c => no_infinity (us ++ vs) -> correlated sqrt us vs c) x1 x2 (snd <$> axis) r.
Proof. exact correlation_total. Qed.
Theorem C68_symmetric : forall sqrt x1 x2 axis r,
  correlation sqrt x1 x2 axis = Ok r -> correlation sqrt x2 x1 axis = Ok r.
Proof. exact correlation_sym. Qed.
Theorem C68_bounds : forall sqrt us vs q,
  root_above sqrt -> length us = length vs -> no_infinity (us ++ vs) -> correlated sqrt us vs (Fin q) -> (-(1) <= q <= 1)%Qc.
Proof. exact correlated_bounds. Qed.
Theorem C68_constant : forall sqrt us vs c,
  root_of sqrt -> length us = length vs -> no_infinity (us ++ vs) -> correlated sqrt us vs c ->
  all_equal (both_present us vs).*1 \/ all_equal (both_present us vs).*2 -> c = NaN.
Proof. exact correlated_constant. Qed.
Theorem C68_defined : forall sqrt us vs c,
  root_above sqrt -> length us = length vs -> no_infinity (us ++ vs) -> correlated sqrt us vs c ->
  ~ all_equal (both_present us vs).*1 -> ~ all_equal (both_present us vs).*2 -> exists q, c = Fin q.
Proof. exact correlated_varies. Qed.
Theorem C68_self : forall sqrt us c,
  root_of sqrt -> no_infinity us -> correlated sqrt us us c ->
  (all_equal (present us) -> c = NaN) /\ (~ all_equal (present us) -> c = Fin 1%Qc).
Proof. exact correlated_self. Qed.
(** An int array opposite NaN raises. *)
Theorem C68_refuted : exists x1 x2, numeric_array x1 /\ numeric_array x2 /\ nd_shape x1 = nd_shape x2 /\
  forall sqrt, correlation sqrt x1 x2 (Some 0%Z) = Err ValueError.
Proof. exact correlation_int. Qed.
Example C68_root : root_of rat_sqrt /\ root_above rat_sqrt.
Proof. split; [exact rat_sqrt_root|exact rat_sqrt_above]. Qed.
Definition fa (l : list val) : nda := Nda DFloat (Arr [2; 2] l).
Example C68_example :
  let a1 := fa [vf 1; vf 2; vf 3; vf 4] in let a2 := fa [vf 2; vf 1; vf 4; vf 3] in
  let a3 := fa [vf 2; VFloat NaN; vf 4; vf 3] in
  correlation rat_sqrt a1 a2 None = Ok (Nda DFloat (Arr [] [vq 3 5])) /\
  correlation rat_sqrt a1 a2 (Some 0%Z) = Ok (Nda DFloat (Arr [2] [vf 1; vf 1])) /\
  correlation rat_sqrt a1 a2 (Some (-1)%Z) = Ok (Nda DFloat (Arr [2] [vf (-1); vf (-1)])) /\
  correlation rat_sqrt a1 a3 (Some 0%Z) = Ok (Nda DFloat (Arr [2] [vf 1; VFloat NaN])) /\
  correlation rat_sqrt a3 a1 (Some 1%Z) = Ok (Nda DFloat (Arr [2] [VFloat NaN; vf (-1)])).
Proof. by_compute. Qed.

(** C69: geometric_mean, for every logarithm with log 1 = 0. *)
Theorem C69_lanes : forall log exp y axis check,
  log (num_of_Z 1) = num_of_Z 0 ->
  valid y -> numeric_larry y -> nonempty y -> axis_ok y axis ->
  (check = true -> forall ls v n, cell y ls = Some v -> to_num v = Some n -> n = NaN \/ num_lt (num_of_Z 0) n) ->
  exists o, larry_geometric_mean log exp y axis check = Ok o /\
    reduction_by (fun vs v => exists ns m, numbers vs ns /\ v = VFloat m /\ geometric log exp ns m) y axis o.
Proof. exact geometric_mean_total. Qed.
Theorem C69_check : forall log exp y axis ls v n,
  valid y -> numeric_larry y -> cell y ls = Some v -> to_num v = Some n -> num_le n (num_of_Z 0) ->
  larry_geometric_mean log exp y axis true = Err ValueError.
Proof. exact geometric_mean_error. Qed.
(** [n - 1] in the place of log and [n + 10] in that of exp. *)
Example C69_example :
  let log := fun n => num_sub n (num_of_Z 1) in let exp := num_add (num_of_Z 10) in
  larry_geometric_mean log exp exm (Some 1%Z) false = Ok (OLar (Larry (Nda DFloat (Arr [2] [vf 11; vf 10])) [[LStr "a"; LStr "b"]])) /\
  larry_geometric_mean log exp exi None true = Ok (OVal (vq 23 2)) /\
  larry_geometric_mean log exp exm (Some 1%Z) true = Err ValueError.
Proof. by_compute. Qed.

(** C70: log, exp, sqrt and power. *)
Theorem C70_elementwise : forall f y,
  valid y -> arithmetic (ldtype y) ->
  exists z, larry_ufunc f y = Ok z /\ valid z /\ llabel z = llabel y /\ ldtype z = DFloat /\
  forall ls v, cell y ls = Some v -> exists n, to_num v = Some n /\ cell z ls = Some (VFloat (f n)).
Proof. exact ufunc_total. Qed.
Theorem C70_int_power : forall pow y z,
  valid y -> ldtype y = DInt -> (0 <= z)%Z ->
  exists y', larry_power pow y (VInt z) = Ok y' /\ valid y' /\ llabel y' = llabel y /\ ldtype y' = DInt /\
  forall ls v, cell y ls = Some v -> exists a, v = VInt a /\ cell y' ls = Some (VInt (a ^ z)).
Proof. exact power_int_total. Qed.
Theorem C70_float_power : forall pow y q n,
  valid y -> arithmetic (ldtype y) -> to_num q = Some n -> q = VFloat n \/ ldtype y = DFloat /\ has_dtype DInt q = true ->
  exists z, larry_power pow y q = Ok z /\ valid z /\ llabel z = llabel y /\ ldtype z = DFloat /\
  forall ls v, cell y ls = Some v -> exists m, to_num v = Some m /\ cell z ls = Some (VFloat (pow m n)).
Proof. exact power_float_total. Qed.
(** Strings are refused, and nothing else among what is modelled. *)
Theorem C70_error : forall f y, valid y -> ldtype y <> DObj ->
  (ldtype y = DStr <-> larry_ufunc f y = Err TypeError) /\ ((exists z, larry_ufunc f y = Ok z) <-> arithmetic (ldtype y)).
Proof. exact ufunc_error. Qed.
Example C70_example :
  larry_ufunc rat_sqrt (Larry (Nda DInt (Arr [3] [VInt 4; VInt 0; VInt 9])) [[LInt 1; LInt 2; LInt 3]]) =
    Ok (Larry (Nda DFloat (Arr [3] [vf 2; vf 0; vf 3])) [[LInt 1; LInt 2; LInt 3]]) /\
  larry_power num_mul exi (VInt 3) = Ok (Larry (Nda DInt (Arr [2; 2] [VInt 1; VInt 8; VInt 27; VInt 64])) (llabel exi)).
Proof. by_compute. Qed.

Print Assumptions C66_keeps.
Print Assumptions C66_vacuum.
Print Assumptions C66_error.
Print Assumptions C66_refuted.
Print Assumptions C66_int_refuted.
Print Assumptions C66_bool_refuted.
Print Assumptions C67_lanes.
Print Assumptions C67_bounds.
Print Assumptions C67_nearer_weighs_more.
Print Assumptions C67_no_decay.
Print Assumptions C67_axis.
Print Assumptions C67_error.
Print Assumptions C68_lanes.
Print Assumptions C68_symmetric.
Print Assumptions C68_bounds.
Print Assumptions C68_constant.
Print Assumptions C68_defined.
Print Assumptions C68_self.
Print Assumptions C68_refuted.
Print Assumptions C69_lanes.
Print Assumptions C69_check.
Print Assumptions C70_elementwise.
Print Assumptions C70_int_power.
Print Assumptions C70_float_power.
Print Assumptions C70_error.
