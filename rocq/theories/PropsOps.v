(** Properties C20, C21, C60, C61, C62: operators and elementwise methods
    (la/deflarry.py) and binaryop (la/flarry.py). *)
From Verif Require Import OpsBinary.
From Verif Require Import PropsLarry PropsAlign.

(** Decide a closed equation by computation; results of arithmetic are equal
    to the expected rationals up to their proof of irreducibility. *)
Ltac by_compute := split_and!; refine (bool_decide_unpack _ _); vm_compute; exact I.

(** Larrys used in the examples. *)
Definition ex4 : larry :=
  Larry (Nda DFloat (Arr [3] [vf 1; VFloat NaN; vf 5])) [[LStr "a"; LStr "b"; LStr "d"]].
Definition exb : larry := Larry (Nda DBool (Arr [2] [VBool true; VBool false])) [[LStr "a"; LStr "b"]].
Definition exs : larry := Larry (Nda DStr (Arr [2] [VStr "u"; VStr "v"])) [[LStr "a"; LStr "b"]].
Example ex4_valid : valid ex4.
Proof. solve_valid. Qed.
Example exb_valid : valid exb.
Proof. solve_valid. Qed.
Example exs_valid : valid exs.
Proof. solve_valid. Qed.

(** C20: operators on two larrys. *)
Theorem C20_arith : forall op y1 y2 z,
  valid y1 -> valid y2 -> larry_arith op y1 (OpLarry y2) = Ok z ->
  lndim y1 = lndim y2 /\ valid z /\ inner_labels y1 y2 z /\
  arithmetic (ldtype y1) /\ arithmetic (ldtype y2) /\ arith_result op (ldtype y1) (ldtype y2) (ldtype z) /\
  forall ls v1 v2, cell y1 ls = Some v1 -> cell y2 ls = Some v2 ->
    exists v, cell z ls = Some v /\ arith_value op v1 v2 v.
Proof. exact arith_larry. Qed.
Theorem C20_arith_succeeds : forall op y1 y2,
  valid y1 -> valid y2 ->
  (exists z, larry_arith op y1 (OpLarry y2) = Ok z) <->
  lndim y1 = lndim y2 /\ arithmetic (ldtype y1) /\ arithmetic (ldtype y2) /\
  (forall i l1 l2, llabel y1 !! i = Some l1 -> llabel y2 !! i = Some l2 ->
     l1 = l2 \/ all_comparable (filter (fun x => x ∈ l2) l1)).
Proof. exact arith_larry_iff. Qed.
Theorem C20_arith_order : forall op y1 y2 y1' y2' z z' ls,
  valid y1 -> valid y2 -> valid y1' -> valid y2' ->
  ldtype y1 = ldtype y1' -> ldtype y2 = ldtype y2' ->
  (forall ls, cell y1 ls = cell y1' ls) -> (forall ls, cell y2 ls = cell y2' ls) ->
  larry_arith op y1 (OpLarry y2) = Ok z -> larry_arith op y1' (OpLarry y2') = Ok z' ->
  cell z ls = cell z' ls.
Proof. exact arith_order. Qed.
Theorem C20_arith_commutes : forall op y1 y2 z z',
  op = AAdd \/ op = AMul -> valid y1 -> valid y2 ->
  larry_arith op y1 (OpLarry y2) = Ok z -> larry_arith op y2 (OpLarry y1) = Ok z' -> z = z'.
Proof. exact arith_comm. Qed.
Theorem C20_logic : forall op y1 y2 z,
  valid y1 -> valid y2 -> larry_logic op y1 (OpLarry y2) = Ok z ->
  lndim y1 = lndim y2 /\ valid z /\ inner_labels y1 y2 z /\
  arithmetic (ldtype y1) /\ arithmetic (ldtype y2) /\ ldtype z = DBool /\
  forall ls v1 v2, cell y1 ls = Some v1 -> cell y2 ls = Some v2 -> cell z ls = Some (VBool (logic_value op v1 v2)).
Proof. exact logic_larry. Qed.
Theorem C20_logic_succeeds : forall op y1 y2,
  valid y1 -> valid y2 ->
  (exists z, larry_logic op y1 (OpLarry y2) = Ok z) <->
  lndim y1 = lndim y2 /\ arithmetic (ldtype y1) /\ arithmetic (ldtype y2) /\
  (forall i l1 l2, llabel y1 !! i = Some l1 -> llabel y2 !! i = Some l2 ->
     l1 = l2 \/ all_comparable (filter (fun x => x ∈ l2) l1)).
Proof. exact logic_larry_iff. Qed.
Theorem C20_logic_order : forall op y1 y2 y1' y2' z z' ls,
  valid y1 -> valid y2 -> valid y1' -> valid y2' ->
  ldtype y1 = ldtype y1' -> ldtype y2 = ldtype y2' ->
  (forall ls, cell y1 ls = cell y1' ls) -> (forall ls, cell y2 ls = cell y2' ls) ->
  larry_logic op y1 (OpLarry y2) = Ok z -> larry_logic op y1' (OpLarry y2') = Ok z' ->
  cell z ls = cell z' ls.
Proof. exact logic_order. Qed.
Theorem C20_compare : forall op y1 y2 o,
  valid y1 -> valid y2 -> same_kind (ldtype y1) (ldtype y2) -> larry_compare op y1 (OpLarry y2) = Ok o ->
  exists z, o = OLar z /\ lndim y1 = lndim y2 /\ valid z /\ inner_labels y1 y2 z /\ ldtype z = DBool /\
  forall ls v1 v2, cell y1 ls = Some v1 -> cell y2 ls = Some v2 ->
    exists b, cell z ls = Some (VBool b) /\ (b = true <-> cmp_holds op v1 v2).
Proof. exact compare_larry. Qed.
Theorem C20_compare_succeeds : forall op y1 y2,
  valid y1 -> valid y2 -> same_kind (ldtype y1) (ldtype y2) ->
  (exists o, larry_compare op y1 (OpLarry y2) = Ok o) <->
  lndim y1 = lndim y2 /\
  (forall i l1 l2, llabel y1 !! i = Some l1 -> llabel y2 !! i = Some l2 ->
     l1 = l2 \/ all_comparable (filter (fun x => x ∈ l2) l1)).
Proof. exact compare_larry_iff. Qed.
Theorem C20_compare_ndim : forall op y1 y2,
  lndim y1 <> lndim y2 -> larry_compare op y1 (OpLarry y2) = Err IndexError.
Proof. exact compare_larry_ndim. Qed.
(** Comparing a str larry with a numerical one: numpy returns a single bool,
    and the result is a larry whose labels do not match its data. *)
Theorem C20_compare_str_refuted : exists y1 y2 z,
  valid y1 /\ valid y2 /\ lndim y1 = lndim y2 /\ larry_compare CEq y1 (OpLarry y2) = Ok (OLar z) /\ ~ valid z.
Proof.
  exists exs, exb. eexists. split; [apply exs_valid|]. split; [apply exb_valid|]. split; [done|]. split; [vm_compute; reflexivity|].
  intros (_ & _ & H & _). by vm_compute in H.
Qed.
Example C20_example :
  larry_arith AAdd ex1 (OpLarry ex4) = Ok (Larry (Nda DFloat (Arr [2] [vf 21; VFloat NaN])) [[LStr "a"; LStr "b"]]) /\
  larry_arith ASub ex2 (OpLarry ex3) = Ok (Larry (Nda DInt (Arr [1; 1] [VInt (-2)])) [[LStr "y"]; [LInt 9]]) /\
  larry_logic LOr exb (OpLarry ex4) = Ok (Larry (Nda DBool (Arr [2] [VBool true; VBool true])) [[LStr "a"; LStr "b"]]) /\
  larry_compare CLt ex4 (OpLarry ex1) = Ok (OLar (Larry (Nda DBool (Arr [2] [VBool true; VBool false])) [[LStr "a"; LStr "b"]])) /\
  larry_arith AAdd ex1 (OpLarry ex2) = Err IndexError.
Proof. by_compute. Qed.

(** C21: binaryop. *)
Theorem C21_binaryop : forall func y1 y2 j cast m1 m2 x labels js,
  valid y1 -> valid y2 -> binaryop func y1 y2 j cast m1 m2 = Ok (x, labels) ->
  joins_are (lndim y2) j js -> JSkip ∉ js ->
  exists z1 z2 w1 w2, lndim y1 = lndim y2 /\ realigned y1 z1 /\ realigned y2 z2 /\ llabel z2 = llabel z1 /\
  labels = Some <$> llabel z1 /\ length (llabel z1) = length (llabel y1) /\
  (forall i l1 l2 r, llabel y1 !! i = Some l1 -> llabel y2 !! i = Some l2 -> llabel z1 !! i = Some r ->
     exists ji, js !! i = Some ji /\ join_label ji l1 l2 r r) /\
  (cast = false -> ldtype z1 = ldtype y1 /\ ldtype z2 = ldtype y2) /\
  (no_new_label y1 z1 -> ldtype z1 = ldtype y1) /\ (no_new_label y2 z2 -> ldtype z2 = ldtype y2) /\
  valid w1 /\ valid w2 /\ llabel w1 = llabel z1 /\ llabel w2 = llabel z1 /\ ldtype w1 = ldtype z1 /\ ldtype w2 = ldtype z2 /\
  (forall ls, in_grid (llabel z1) ls -> cell w1 ls = filled z1 z2 m1 m2 ls /\ cell w2 ls = filled z2 z1 m1 m2 ls) /\
  func (lx w1) (lx w2) = Ok x.
Proof. exact binaryop_spec. Qed.
Theorem C21_arith : forall op y1 y2 j cast m1 m2 x labels js,
  valid y1 -> valid y2 -> binaryop (np_arith op) y1 y2 j cast m1 m2 = Ok (x, labels) ->
  joins_are (lndim y2) j js -> JSkip ∉ js ->
  exists z1 z2 L, lndim y1 = lndim y2 /\ realigned y1 z1 /\ realigned y2 z2 /\ llabel z1 = L /\ llabel z2 = L /\
  labels = Some <$> L /\ length L = length (llabel y1) /\
  (forall i l1 l2 r, llabel y1 !! i = Some l1 -> llabel y2 !! i = Some l2 -> L !! i = Some r ->
     exists ji, js !! i = Some ji /\ join_label ji l1 l2 r r) /\
  (cast = false -> ldtype z1 = ldtype y1 /\ ldtype z2 = ldtype y2) /\
  (no_new_label y1 z1 -> ldtype z1 = ldtype y1) /\ (no_new_label y2 z2 -> ldtype z2 = ldtype y2) /\
  valid (Larry x L) /\ arith_result op (ldtype z1) (ldtype z2) (nd_dtype x) /\
  forall ls, in_grid L ls -> exists v1 v2 v,
    filled z1 z2 m1 m2 ls = Some v1 /\ filled z2 z1 m1 m2 ls = Some v2 /\
    cell (Larry x L) ls = Some v /\ arith_value op v1 v2 v.
Proof. exact binaryop_arith. Qed.
Theorem C21_arith_succeeds : forall op y1 y2 j cast m1 m2 js,
  valid y1 -> valid y2 -> lndim y1 = lndim y2 -> joins_are (lndim y2) j js -> JSkip ∉ js -> fill_value m1 -> fill_value m2 ->
  (exists r, binaryop (np_arith op) y1 y2 j cast m1 m2 = Ok r) <->
  arithmetic (ldtype y1) /\ arithmetic (ldtype y2) /\
  (forall i ji l1 l2, js !! i = Some ji -> llabel y1 !! i = Some l1 -> llabel y2 !! i = Some l2 ->
     joinable ji l1 l2 /\ fillable cast (ldtype y1) ji l1 l2 /\ fillable cast (ldtype y2) (join_mirror ji) l2 l1).
Proof. exact binaryop_arith_iff. Qed.
(** The four functions are binaryop with the operator of the same name; the
    inner join without filling is the operator. *)
Theorem C21_functions : forall y1 y2 x L,
  valid y1 -> valid y2 ->
  (larry_add y1 y2 (JOne JInner) true None None = Ok (x, Some <$> L) <-> larry_arith AAdd y1 (OpLarry y2) = Ok (Larry x L)) /\
  (larry_subtract y1 y2 (JOne JInner) true None None = Ok (x, Some <$> L) <-> larry_arith ASub y1 (OpLarry y2) = Ok (Larry x L)) /\
  (larry_multiply y1 y2 (JOne JInner) true None None = Ok (x, Some <$> L) <-> larry_arith AMul y1 (OpLarry y2) = Ok (Larry x L)) /\
  (larry_divide y1 y2 (JOne JInner) true None None = Ok (x, Some <$> L) <-> larry_arith ADiv y1 (OpLarry y2) = Ok (Larry x L)) /\
  (larry_divide2 y1 y2 (JOne JInner) true None None = Ok (x, Some <$> L) <-> larry_arith AOldDiv y1 (OpLarry y2) = Ok (Larry x L)).
Proof. intros y1 y2 x L H1 H2. exact (conj (binaryop_inner _ y1 y2 x L H1 H2) (conj (binaryop_inner _ y1 y2 x L H1 H2) (conj (binaryop_inner _ y1 y2 x L H1 H2) (conj (binaryop_inner _ y1 y2 x L H1 H2) (binaryop_inner _ y1 y2 x L H1 H2))))). Qed.
(** With join 'skip' the result has [None] instead of a label list. *)
Theorem C21_skip_refuted : exists y1 y2 x,
  valid y1 /\ valid y2 /\ llabel y1 = llabel y2 /\
  larry_add y1 y2 (JOne JSkip) true None None = Ok (x, [None]).
Proof. exists exb, exb. eexists. split; [apply exb_valid|]. split; [apply exb_valid|]. split; [done|]. vm_compute. reflexivity. Qed.
Example C21_example :
  larry_add ex4 exn (JOne JOuter) true (Some (VInt 0)) (Some (VInt 7)) =
    Ok (Nda DFloat (Arr [4] [vf 2; vf 14; vf 3; vf 5]), [Some [LStr "a"; LStr "b"; LStr "c"; LStr "d"]]) /\
  larry_add ex4 exn (JOne JOuter) true None None =
    Ok (Nda DFloat (Arr [4] [vf 2; VFloat NaN; VFloat NaN; VFloat NaN]), [Some [LStr "a"; LStr "b"; LStr "c"; LStr "d"]]) /\
  larry_add ex4 exn (JOne JLeft) true (Some (VInt 0)) None =
    Ok (Nda DFloat (Arr [3] [vf 2; VFloat NaN; vf 5]), [Some [LStr "a"; LStr "b"; LStr "d"]]).
Proof. by_compute. Qed.

(** C60: operators with an array. *)
Theorem C60_array : forall op y a z,
  valid y -> nda_wf a -> fits (nd_shape a) (lshape y) -> larry_arith op y (OpArr a) = Ok z ->
  valid z /\ llabel z = llabel y /\ arith_result op (ldtype y) (nd_dtype a) (ldtype z) /\
  forall idx ls, labels_at (llabel y) idx ls -> exists idx' u v w,
    broadcast_index (nd_shape a) idx idx' /\ cell y ls = Some u /\ aget (nd_arr a) idx' = Some v /\
    arith_value op u v w /\ cell z ls = Some w.
Proof. exact arith_array. Qed.
Theorem C60_array_succeeds : forall op y a,
  valid y -> nda_wf a -> fits (nd_shape a) (lshape y) ->
  (exists z, larry_arith op y (OpArr a) = Ok z) <-> arithmetic (ldtype y) /\ arithmetic (nd_dtype a).
Proof. exact arith_array_iff. Qed.
Theorem C60_array_valid_iff : forall op y a z,
  valid y -> nda_wf a -> larry_arith op y (OpArr a) = Ok z ->
  llabel z = llabel y /\ (valid z <-> fits (nd_shape a) (lshape y)).
Proof. exact arith_array_valid. Qed.
Theorem C60_logic_array : forall op y a z,
  valid y -> nda_wf a -> fits (nd_shape a) (lshape y) -> larry_logic op y (OpArr a) = Ok z ->
  valid z /\ llabel z = llabel y /\ ldtype z = DBool /\
  forall idx ls, labels_at (llabel y) idx ls -> exists idx' u v,
    broadcast_index (nd_shape a) idx idx' /\ cell y ls = Some u /\ aget (nd_arr a) idx' = Some v /\
    cell z ls = Some (VBool (logic_value op u v)).
Proof. exact logic_array. Qed.
Theorem C60_compare_array : forall op y a,
  valid y -> nda_wf a -> fits (nd_shape a) (lshape y) -> same_kind (ldtype y) (nd_dtype a) ->
  exists z, larry_compare op y (OpArr a) = Ok (OLar z) /\ valid z /\ llabel z = llabel y /\ ldtype z = DBool /\
  forall idx ls, labels_at (llabel y) idx ls -> exists idx' u v b,
    broadcast_index (nd_shape a) idx idx' /\ cell y ls = Some u /\ aget (nd_arr a) idx' = Some v /\
    cell z ls = Some (VBool b) /\ (b = true <-> cmp_holds op u v).
Proof. exact compare_array. Qed.
Theorem C60_scalar : forall op y v z,
  valid y -> larry_arith op y (OpScalar v) = Ok z ->
  valid z /\ llabel z = llabel y /\
  forall ls u, cell y ls = Some u -> exists w, cell z ls = Some w /\ arith_value op u v w.
Proof. exact arith_scalar. Qed.
Theorem C60_scalar_succeeds : forall op y v,
  valid y -> (exists z, larry_arith op y (OpScalar v) = Ok z) <-> arithmetic (ldtype y) /\ is_Some (to_num v).
Proof. exact arith_scalar_iff. Qed.
Theorem C60_logic_scalar : forall op y v z,
  valid y -> larry_logic op y (OpScalar v) = Ok z ->
  valid z /\ llabel z = llabel y /\ ldtype z = DBool /\
  forall ls, cell z ls = (fun u => VBool (logic_value op u v)) <$> cell y ls.
Proof. exact logic_scalar. Qed.
Theorem C60_compare_scalar : forall op y v,
  valid y -> (arithmetic (ldtype y) /\ is_Some (to_num v)) \/ (ldtype y = DStr /\ has_dtype DStr v = true) ->
  exists z, larry_compare op y (OpScalar v) = Ok (OLar z) /\ valid z /\ llabel z = llabel y /\ ldtype z = DBool /\
  forall ls u, cell y ls = Some u -> exists b, cell z ls = Some (VBool b) /\ (b = true <-> cmp_holds op u v).
Proof. exact compare_scalar. Qed.
(** Other operands: only comparisons take lists. *)
Theorem C60_other_operands : forall y a,
  (forall op, larry_arith op y OpOther = Err TypeError /\ larry_arith op y (OpList a) = Err TypeError) /\
  (forall op, larry_logic op y OpOther = Err TypeError /\ larry_logic op y (OpList a) = Err TypeError) /\
  (forall op, larry_compare op y OpOther = Err TypeError /\ larry_compare op y (OpList a) = larry_compare op y (OpArr a)).
Proof. done. Qed.
(** An array that broadcasts to a bigger shape gives an ill-formed larry. *)
Theorem C60_bigger_refuted : exists y a z,
  valid y /\ nda_wf a /\ larry_arith AAdd y (OpArr a) = Ok z /\ ~ valid z.
Proof.
  exists ex1, (lx ex2). eexists. split; [apply ex1_valid|]. split; [apply ex2_valid|]. split; [vm_compute; reflexivity|].
  intros (_ & _ & H & _). by vm_compute in H.
Qed.
Example C60_example :
  larry_arith AMul ex2 (OpArr (Nda DFloat (Arr [2; 1] [vf 2; vf 3]))) =
    Ok (Larry (Nda DFloat (Arr [2; 3] [vf 2; vf 4; vf 6; vf 12; vf 15; vf 18])) (llabel ex2)) /\
  larry_compare CGe ex2 (OpScalar (VInt 4)) =
    Ok (OLar (Larry (Nda DBool (Arr [2; 3] (VBool <$> [false; false; false; true; true; true]))) (llabel ex2))) /\
  larry_arith AAdd ex2 (OpArr (Nda DInt (Arr [2] [VInt 1; VInt 1]))) = Err ValueError.
Proof. by_compute. Qed.

(** C61: reflected operators. *)
Theorem C61_reflected : forall op y v z,
  valid y -> larry_rarith op y (OpScalar v) = Ok z ->
  ~ (op = ASub /\ ldtype y = DBool /\ has_dtype DBool v = true) ->
  valid z /\ llabel z = llabel y /\
  forall ls u, cell y ls = Some u -> exists w, cell z ls = Some w /\ arith_value op v u w.
Proof. exact rarith_scalar. Qed.
Theorem C61_reflected_succeeds : forall op y v,
  valid y -> (exists z, larry_rarith op y (OpScalar v) = Ok z) <-> arithmetic (ldtype y) /\ is_Some (to_num v).
Proof. exact rarith_scalar_iff. Qed.
Theorem C61_divide_array : forall op y a z,
  valid y -> nda_wf a -> fits (nd_shape a) (lshape y) -> larry_rdivide op y (OpArr a) = Ok z ->
  valid z /\ llabel z = llabel y /\
  forall idx ls, labels_at (llabel y) idx ls -> exists idx' u v w,
    broadcast_index (nd_shape a) idx idx' /\ cell y ls = Some u /\ aget (nd_arr a) idx' = Some v /\
    arith_value op v u w /\ cell z ls = Some w.
Proof. exact rdivide_array. Qed.
(** For two booleans [b - y] is computed as the negation of [y - b], which is
    not the exclusive or. *)
Theorem C61_bool_subtract_refuted : exists y v z ls u w,
  valid y /\ larry_rarith ASub y (OpScalar v) = Ok z /\ cell y ls = Some u /\ cell z ls = Some w /\
  ~ arith_value ASub v u w.
Proof.
  exists exb, (VBool true). do 4 eexists. split; [apply exb_valid|]. split; [vm_compute; reflexivity|].
  split; [|split]; [instantiate (2 := [LStr "a"]); vm_compute; reflexivity|vm_compute; reflexivity|]. by vm_compute.
Qed.
Example C61_example :
  larry_rarith ASub ex1 (OpScalar (VInt 25)) = Ok (Larry (Nda DFloat (Arr [3] [vf 15; vf 5; vf (-5)])) (llabel ex1)) /\
  larry_rarith AFloorDiv ex2 (OpScalar (VInt 7)) = Ok (Larry (Nda DInt (Arr [2; 3] (VInt <$> [7; 3; 2; 1; 1; 1]%Z))) (llabel ex2)).
Proof. by_compute. Qed.

(** C62: elementwise methods. *)
Theorem C62_neg : forall y z,
  valid y -> larry_neg y = Ok z ->
  valid z /\ llabel z = llabel y /\ ldtype z = ldtype y /\ arithmetic (ldtype y) /\
  forall ls v, cell y ls = Some v -> exists w, cell z ls = Some w /\ neg_value v w.
Proof. exact neg_spec. Qed.
Theorem C62_neg_involutive : forall y z, valid y -> larry_neg y = Ok z -> larry_neg z = Ok y.
Proof. exact neg_invol. Qed.
Theorem C62_abs : forall y z,
  valid y -> larry_abs y = Ok z ->
  valid z /\ llabel z = llabel y /\ ldtype z = ldtype y /\
  forall ls v, cell y ls = Some v -> exists n w m, to_num v = Some n /\ cell z ls = Some w /\ to_num w = Some m /\ abs_of n m.
Proof. exact larry_abs_spec. Qed.
Theorem C62_sign : forall y z,
  valid y -> larry_sign y = Ok z ->
  valid z /\ llabel z = llabel y /\ ldtype z = (if decide (ldtype y = DBool) then DInt else ldtype y) /\
  forall ls v, cell y ls = Some v -> exists n w m, to_num v = Some n /\ cell z ls = Some w /\ to_num w = Some m /\ sign_of n m.
Proof. exact larry_sign_spec. Qed.
Theorem C62_unary_succeeds : forall y,
  ((exists z, larry_neg y = Ok z) <-> arithmetic (ldtype y)) /\ ((exists z, larry_abs y = Ok z) <-> arithmetic (ldtype y)) /\
  ((exists z, larry_sign y = Ok z) <-> arithmetic (ldtype y)).
Proof. exact unary_iff. Qed.
Theorem C62_isnan : forall y z,
  valid y -> larry_isnan y = Ok z ->
  arithmetic (ldtype y) /\ valid z /\ llabel z = llabel y /\ ldtype z = DBool /\
  forall ls v, cell y ls = Some v -> exists n b, to_num v = Some n /\ cell z ls = Some (VBool b) /\ (b = true <-> n = NaN).
Proof. exact (fun y z => larry_test_iff _ is_nan y z is_nan_iff). Qed.
Theorem C62_isfinite : forall y z,
  valid y -> larry_isfinite y = Ok z ->
  arithmetic (ldtype y) /\ valid z /\ llabel z = llabel y /\ ldtype z = DBool /\
  forall ls v, cell y ls = Some v -> exists n b, to_num v = Some n /\ cell z ls = Some (VBool b) /\ (b = true <-> exists q, n = Fin q).
Proof. exact (fun y z => larry_test_iff _ is_finite y z is_finite_iff). Qed.
Theorem C62_isinf : forall y z,
  valid y -> larry_isinf y = Ok z ->
  arithmetic (ldtype y) /\ valid z /\ llabel z = llabel y /\ ldtype z = DBool /\
  forall ls v, cell y ls = Some v -> exists n b, to_num v = Some n /\ cell z ls = Some (VBool b) /\ (b = true <-> n = PInf \/ n = NInf).
Proof. exact (fun y z => larry_test_iff _ is_inf y z is_inf_iff). Qed.
Theorem C62_tests_succeed : forall y, arithmetic (ldtype y) ->
  (exists z, larry_isnan y = Ok z) /\ (exists z, larry_isfinite y = Ok z) /\ (exists z, larry_isinf y = Ok z).
Proof. intros y H. exact (conj (larry_test_ok is_nan y H) (conj (larry_test_ok is_finite y H) (larry_test_ok is_inf y H))). Qed.
Theorem C62_invert : forall y z,
  valid y -> larry_invert y = Ok z ->
  ldtype y = DBool /\ valid z /\ llabel z = llabel y /\ ldtype z = DBool /\
  forall ls v, cell y ls = Some v -> exists b, v = VBool b /\ cell z ls = Some (VBool (negb b)).
Proof. exact invert_bool. Qed.
Theorem C62_invert_iff : forall y, (exists z, larry_invert y = Ok z) <-> ldtype y = DBool.
Proof. exact invert_ok. Qed.
Theorem C62_invert_involutive : forall y z, valid y -> larry_invert y = Ok z -> larry_invert z = Ok y.
Proof. exact invert_invol. Qed.
Example C62_example :
  larry_neg ex4 = Ok (Larry (Nda DFloat (Arr [3] [vf (-1); VFloat NaN; vf (-5)])) (llabel ex4)) /\
  larry_sign ex2 = Ok (Larry (Nda DInt (Arr [2; 3] (VInt <$> [1; 1; 1; 1; 1; 1]%Z))) (llabel ex2)) /\
  larry_isnan ex4 = Ok (Larry (Nda DBool (Arr [3] [VBool false; VBool true; VBool false])) (llabel ex4)) /\
  larry_invert exb = Ok (Larry (Nda DBool (Arr [2] [VBool false; VBool true])) (llabel exb)) /\
  larry_invert ex1 = Err TypeError.
Proof. by_compute. Qed.

Print Assumptions C20_arith.
Print Assumptions C20_arith_succeeds.
Print Assumptions C20_arith_order.
Print Assumptions C20_arith_commutes.
Print Assumptions C20_logic.
Print Assumptions C20_logic_succeeds.
Print Assumptions C20_logic_order.
Print Assumptions C20_compare.
Print Assumptions C20_compare_succeeds.
Print Assumptions C20_compare_ndim.
Print Assumptions C20_compare_str_refuted.
Print Assumptions C21_binaryop.
Print Assumptions C21_arith.
Print Assumptions C21_arith_succeeds.
Print Assumptions C21_functions.
Print Assumptions C21_skip_refuted.
Print Assumptions C60_array.
Print Assumptions C60_array_succeeds.
Print Assumptions C60_array_valid_iff.
Print Assumptions C60_logic_array.
Print Assumptions C60_compare_array.
Print Assumptions C60_scalar.
Print Assumptions C60_scalar_succeeds.
Print Assumptions C60_logic_scalar.
Print Assumptions C60_compare_scalar.
Print Assumptions C60_other_operands.
Print Assumptions C60_bigger_refuted.
Print Assumptions C61_reflected.
Print Assumptions C61_reflected_succeeds.
Print Assumptions C61_divide_array.
Print Assumptions C61_bool_subtract_refuted.
Print Assumptions C62_neg.
Print Assumptions C62_neg_involutive.
Print Assumptions C62_abs.
Print Assumptions C62_sign.
Print Assumptions C62_unary_succeeds.
Print Assumptions C62_isnan.
Print Assumptions C62_isfinite.
Print Assumptions C62_isinf.
Print Assumptions C62_tests_succeed.
Print Assumptions C62_invert.
Print Assumptions C62_invert_iff.
Print Assumptions C62_invert_involutive.
