(** Properties C32 to C37: accumulations, reductions, clip, vacuum,
    cut_missing and push (la/deflarry.py, la/farray/normalize.py). *)
From Verif Require Import CutFacts CutErr.
From Verif Require Import PropsLarry PropsAlign PropsOps.

(** A 2d float larry, a larry with an empty row and column, an int larry and
    one with an axis of length zero. *)
Definition exm : larry :=
  Larry (Nda DFloat (Arr [2; 3] [vf 1; VFloat NaN; vf 3; vf 4; vf 5; vf (-6)])) [[LStr "a"; LStr "b"]; [LInt 1; LInt 2; LInt 3]].
Definition exv : larry :=
  Larry (Nda DFloat (Arr [2; 3] [VFloat NaN; VFloat NaN; VFloat PInf; vf 4; VFloat NaN; vf 6]))
    [[LStr "a"; LStr "b"]; [LInt 1; LInt 2; LInt 3]].
Definition exi : larry :=
  Larry (Nda DInt (Arr [2; 2] [VInt 1; VInt 2; VInt 3; VInt 4])) [[LStr "a"; LStr "b"]; [LInt 1; LInt 2]].
Definition exz : larry := Larry (Nda DFloat (Arr [0; 2] [])) [[]; [LInt 1; LInt 2]].
Example exn_valid : valid exm.
Proof. solve_valid. Qed.
Example exv_valid : valid exv.
Proof. solve_valid. Qed.
Example exi_valid : valid exi.
Proof. solve_valid. Qed.
Example exz_valid : valid exz.
Proof. solve_valid. Qed.

(** C32: cumsum and cumprod. *)
Theorem C32_cum : forall op y axis z,
  valid y -> larry_cum op y axis = Ok z ->
  exists a ax, axis = Some a /\ axis_is y a ax /\ arithmetic (ldtype y) /\ valid z /\ llabel z = llabel y /\
  forall ls, in_grid (llabel y) ls -> exists vs k v, in_lane y ax ls vs k /\ cell z ls = Some v /\ accumulates op vs k v.
Proof. exact larry_cum_spec. Qed.
Theorem C32_cum_succeeds : forall op y axis ax,
  valid y -> arithmetic (ldtype y) -> axis_is y axis ax ->
  exists z, larry_cum op y (Some axis) = Ok z.
Proof. exact larry_cum_ok. Qed.
Theorem C32_cum_none : forall op y, larry_cum op y None = Err ValueError.
Proof. exact larry_cum_none. Qed.
Example C32_example :
  larry_cum CSum exm (Some 1%Z) =
    Ok (Larry (Nda DFloat (Arr [2; 3] [vf 1; VFloat NaN; vf 4; vf 4; vf 9; vf 3])) (llabel exm)) /\
  larry_cum CProd exm (Some (-1)%Z) =
    Ok (Larry (Nda DFloat (Arr [2; 3] [vf 1; VFloat NaN; vf 3; vf 4; vf 20; vf (-120)])) (llabel exm)) /\
  larry_cum CSum exi (Some 0%Z) =
    Ok (Larry (Nda DInt (Arr [2; 2] [VInt 1; VInt 2; VInt 4; VInt 6])) (llabel exi)).
Proof. by_compute. Qed.

(** C33: reductions. *)
Theorem C33_reduce : forall op y axis o,
  valid y -> nonempty y -> op <> RProd -> larry_reduce op y axis = Ok o ->
  arithmetic (ldtype y) /\ axis_ok y axis /\ reduction_of op y axis o.
Proof. exact larry_reduce_spec. Qed.
(** What counts as true in [any], [all], the logical operators and where a
    value is put into a bool array. *)
Theorem C33_truth : forall v, val_truth v = false <->
  v = VFloat (Fin 0%Qc) \/ v = VInt 0 \/ v = VBool false \/ v = VStr "" \/ v = VNone.
Proof. exact val_truth_false. Qed.
Theorem C33_reduce_succeeds : forall op y axis,
  valid y -> nonempty y -> arithmetic (ldtype y) -> axis_ok y axis -> op <> RProd ->
  exists o, larry_reduce op y axis = Ok o /\ reduction_of op y axis o.
Proof. exact larry_reduce_total. Qed.
Theorem C33_reduce_empty : forall op y axis,
  valid y -> ~ nonempty y -> axis_ok y axis ->
  ldtype y = DFloat \/ op = RAny \/ op = RAll \/ axis = None \/ length (llabel y) = 1 ->
  exists o, larry_reduce op y axis = Ok o /\ reduction_default (red_default op) y axis o.
Proof. exact larry_reduce_empty. Qed.
Theorem C33_std : forall sqrt y axis ddof,
  valid y -> nonempty y -> arithmetic (ldtype y) -> axis_ok y axis ->
  exists o, larry_std sqrt y axis ddof = Ok o /\
    reduction_by (fun vs v => exists m, reduces (RVar ddof) vs (VFloat m) /\ v = VFloat (sqrt m)) y axis o.
Proof. exact larry_std_total. Qed.
(** prod, for float larrys, and for int and bool larrys reduced to a scalar. *)
Theorem C33_prod_partial : forall y axis,
  valid y -> nonempty y -> arithmetic (ldtype y) -> axis_ok y axis ->
  ldtype y = DFloat \/ axis = None \/ length (llabel y) = 1 ->
  exists o, larry_prod y axis = Ok o /\ reduction_of RProd y axis o.
Proof. exact larry_prod_eq. Qed.
Theorem C33_prod_empty : forall y axis,
  valid y -> ~ nonempty y -> axis_ok y axis -> arithmetic (ldtype y) ->
  ldtype y = DFloat \/ axis = None \/ length (llabel y) = 1 ->
  exists o, larry_prod y axis = Ok o /\ reduction_default (VFloat NaN) y axis o.
Proof. exact larry_prod_empty. Qed.
(** prod of an int or bool larry along one of several axes writes NaN into an
    int array: it never succeeds. *)
Theorem C33_prod_int : forall y a,
  valid y -> nonempty y -> ldtype y = DInt \/ ldtype y = DBool -> axis_ok y (Some a) -> 1 < length (llabel y) ->
  larry_prod y (Some a) = Err ValueError.
Proof. exact larry_prod_int. Qed.
Theorem C33_prod_int_refuted : exists y a,
  valid y /\ ldtype y = DInt /\ axis_ok y (Some a) /\ nonempty y /\ larry_prod y (Some a) = Err ValueError.
Proof.
  exists exi, 0%Z. split_and!; [exact exi_valid|done|exists 0; split; simpl; lia| |done].
  by repeat constructor.
Qed.
Example C33_example :
  larry_reduce RSum exm (Some 0%Z) =
    Ok (OLar (Larry (Nda DFloat (Arr [3] [vf 5; vf 5; vf (-3)])) [[LInt 1; LInt 2; LInt 3]])) /\
  larry_reduce RMedian exm (Some 1%Z) = Ok (OLar (Larry (Nda DFloat (Arr [2] [vf 2; vf 4])) [[LStr "a"; LStr "b"]])) /\
  larry_reduce RMax exm None = Ok (OVal (vf 5)) /\
  larry_reduce (RVar 1) exi None = Ok (OVal (VFloat (Fin (Q2Qc (5 # 3))))) /\
  larry_reduce RMean exz (Some 0%Z) = Ok (OLar (Larry (Nda DFloat (Arr [2] [VFloat NaN; VFloat NaN])) [[LInt 1; LInt 2]])) /\
  larry_prod exm (Some 1%Z) = Ok (OLar (Larry (Nda DFloat (Arr [2] [vf 3; vf (-120)])) [[LStr "a"; LStr "b"]])) /\
  larry_reduce RAll exi None = Ok (OVal (VBool true)).
Proof. by_compute. Qed.

(** C34: clip. *)
Theorem C34_clip : forall y lo hi l h,
  valid y -> ldtype y = DFloat \/ ldtype y = DInt /\ has_dtype DInt lo = true /\ has_dtype DInt hi = true ->
  to_num lo = Some l -> to_num hi = Some h -> num_le l h ->
  exists z, larry_clip y lo hi = Ok z /\ valid z /\ llabel z = llabel y /\ ldtype z = ldtype y /\
    forall ls v, cell y ls = Some v -> exists n w m, to_num v = Some n /\ cell z ls = Some w /\ to_num w = Some m /\ clipped l h n m.
Proof. exact larry_clip_le. Qed.
Theorem C34_clip_bounds : forall y lo hi l h,
  to_num lo = Some l -> to_num hi = Some h -> num_lt h l -> larry_clip y lo hi = Err ValueError.
Proof. exact larry_clip_gt. Qed.
Example C34_example :
  larry_clip exm (VInt 2) (vf 4) = Ok (Larry (Nda DFloat (Arr [2; 3] [vf 2; VFloat NaN; vf 3; vf 4; vf 4; vf 2])) (llabel exm)) /\
  larry_clip exi (VInt 2) (VInt 3) = Ok (Larry (Nda DInt (Arr [2; 2] [VInt 2; VInt 2; VInt 3; VInt 3])) (llabel exi)) /\
  larry_clip exm (VInt 5) (VInt 4) = Err ValueError.
Proof. by_compute. Qed.

(** C35: vacuum cuts along the axes not named by the argument (all of them for
    None). *)
Theorem C35_vacuum : forall y axis,
  valid y -> arithmetic (ldtype y) ->
  exists z, vacuum y axis = Ok z /\
    cut_down (slice_finite y) (fun ax => match axis with
                                         | AxNone => True
                                         | AxInt a => Z.of_nat ax <> a
                                         | AxTuple l => Z.of_nat ax ∉ l
                                         end) y z.
Proof. exact vacuum_cut. Qed.
Theorem C35_vacuum_finite : forall y axis z ls,
  valid y -> arithmetic (ldtype y) -> vacuum y axis = Ok z -> finite_at z ls <-> finite_at y ls.
Proof. exact vacuum_finite. Qed.
Theorem C35_vacuum_idempotent : forall y axis z,
  valid y -> arithmetic (ldtype y) -> vacuum y axis = Ok z -> vacuum z axis = Ok z.
Proof. exact vacuum_idempotent. Qed.
(** A negative axis is not counted from the end: every axis is cut. *)
Theorem C35_vacuum_negative_refuted : exists y z1 z2,
  valid y /\ axis_is y (-1) 1 /\ vacuum y (AxInt 1) = Ok z1 /\ vacuum y (AxInt (-1)) = Ok z2 /\ z1 <> z2 /\
  vacuum y (AxInt (-1)) = vacuum y AxNone.
Proof.
  eexists exv, _, _. split_and!; [exact exv_valid|split; simpl; lia|vm_compute; reflexivity|vm_compute; reflexivity|done|done].
Qed.
(** A larry of text or of objects has no finite entries to look for: TypeError
    as soon as one axis is to be cut. *)
Theorem C35_vacuum_error : forall y axis,
  valid y -> ldtype y = DStr \/ ldtype y = DObj ->
  (vacuum y axis = Ok y /\ forall ax, ax < lndim y ->
     match axis with AxNone => False | AxInt a => Z.of_nat ax = a | AxTuple l => Z.of_nat ax ∈ l end) \/
  (vacuum y axis = Err TypeError /\ exists ax, ax < lndim y /\
     match axis with AxNone => True | AxInt a => Z.of_nat ax <> a | AxTuple l => Z.of_nat ax ∉ l end).
Proof. exact vacuum_text. Qed.
Example C35_error_example :
  vacuum exs AxNone = Err TypeError /\ vacuum exs (AxInt 0) = Ok exs /\ vacuum exs (AxInt 1) = Err TypeError.
Proof. by_compute. Qed.
Example C35_example :
  vacuum exv AxNone = Ok (Larry (Nda DFloat (Arr [1; 2] [vf 4; vf 6])) [[LStr "b"]; [LInt 1; LInt 3]]) /\
  vacuum exv (AxInt 0) =
    Ok (Larry (Nda DFloat (Arr [2; 2] [VFloat NaN; VFloat PInf; vf 4; vf 6])) [[LStr "a"; LStr "b"]; [LInt 1; LInt 3]]) /\
  vacuum exv (AxTuple [0; 1]%Z) = Ok exv.
Proof. by_compute. Qed.

(** C36: cut_missing cuts along the axes other than [a]; if nothing is left
    the result is [larry([])]. *)
Theorem C36_cut_missing : forall y fraction a ax,
  valid y -> arithmetic (ldtype y) -> axis_is y a ax ->
  exists z, cut_down (slice_enough fraction y) (fun k => k <> ax) y z /\
    cut_missing y fraction (Some a) = Ok (if decide (lsize z = 0) then empty_larry else z).
Proof. exact cut_missing_total. Qed.
(** With axis None (the default) nothing is cut. *)
Theorem C36_cut_missing_none : forall y fraction,
  valid y -> arithmetic (ldtype y) -> nonempty y -> cut_missing y fraction None = Ok y.
Proof. exact cut_missing_none. Qed.
Theorem C36_cut_missing_none_refuted : exists y fraction z,
  valid y /\ cut_missing y fraction None = Ok z /\
  ~ cut_down (slice_enough fraction y) (fun _ => True) y z.
Proof. exact cut_missing_none_refuted. Qed.
Theorem C36_cut_missing_error : forall y fraction a,
  valid y ->
  ((forall ax, ~ axis_is y a ax) -> cut_missing y fraction (Some a) = Err IndexError) /\
  (ldtype y = DStr \/ ldtype y = DObj -> forall ax, axis_is y a ax -> 1 < lndim y ->
   cut_missing y fraction (Some a) = Err TypeError).
Proof. exact cut_missing_error. Qed.
Example C36_error_example :
  cut_missing exm (Fin 0) (Some 2%Z) = Err IndexError /\ cut_missing exm (Fin 0) (Some (-3)%Z) = Err IndexError /\
  cut_missing (Larry (Nda DStr (Arr [1; 2] [VStr "u"; VStr "v"])) [[LInt 1]; [LInt 1; LInt 2]]) (Fin 0) (Some 0%Z) = Err TypeError.
Proof. by_compute. Qed.
Example C36_example :
  cut_missing exv (Fin (Q2Qc (1 # 2))) (Some 0%Z) =
    Ok empty_larry /\
  cut_missing exm (Fin (Q2Qc (1 # 4))) (Some 0%Z) =
    Ok (Larry (Nda DFloat (Arr [2; 2] [vf 1; vf 3; vf 4; vf (-6)])) [[LStr "a"; LStr "b"]; [LInt 1; LInt 3]]) /\
  cut_missing exm (Fin (Q2Qc (1 # 4))) (Some (-1)%Z) =
    Ok (Larry (Nda DFloat (Arr [1; 3] [vf 4; vf 5; vf (-6)])) [[LStr "b"]; [LInt 1; LInt 2; LInt 3]]) /\
  cut_missing exm (Fin (Q2Qc (1 # 4))) None = Ok exm.
Proof. by_compute. Qed.

(** C37: push. *)
Theorem C37_push : forall y n a ax,
  valid y -> arithmetic (ldtype y) -> axis_is y a ax ->
  exists z, larry_push y n a = Ok z /\ valid z /\ ldtype z = ldtype y /\ llabel z = llabel y /\
    forall ls, in_grid (llabel y) ls -> exists vs k v, in_lane y ax ls vs k /\ cell z ls = Some v /\ pushed n vs k v.
Proof. exact larry_push_total. Qed.
Theorem C37_push_axis : forall y n a,
  valid y -> (forall ax, ~ axis_is y a ax) -> forall z, larry_push y n a <> Ok z.
Proof. exact larry_push_axis. Qed.
Theorem C37_push_error : forall y n a,
  valid y ->
  (ldtype y = DStr \/ ldtype y = DObj -> larry_push y n a = Err TypeError) /\
  (~ (ldtype y = DStr \/ ldtype y = DObj) -> (forall ax, ~ axis_is y a ax) -> larry_push y n a = Err ValueError).
Proof. exact larry_push_error. Qed.
Example C37_error_example : larry_push exs 1 0 = Err TypeError /\ larry_push exm 1 2 = Err ValueError.
Proof. by_compute. Qed.
Example C37_example :
  larry_push (Larry (Nda DFloat (Arr [6] [VFloat NaN; vf 1; VFloat NaN; VFloat PInf; VFloat NaN; vf 2])) [LInt <$> [1;2;3;4;5;6]%Z]) 2 0 =
    Ok (Larry (Nda DFloat (Arr [6] [VFloat NaN; vf 1; vf 1; vf 1; VFloat NaN; vf 2])) [LInt <$> [1;2;3;4;5;6]%Z]) /\
  larry_push exm 1 (-1) = Ok (Larry (Nda DFloat (Arr [2; 3] [vf 1; vf 1; vf 3; vf 4; vf 5; vf (-6)])) (llabel exm)).
Proof. by_compute. Qed.

Print Assumptions C32_cum.
Print Assumptions C32_cum_succeeds.
Print Assumptions C32_cum_none.
Print Assumptions C33_reduce.
Print Assumptions C33_truth.
Print Assumptions C33_reduce_succeeds.
Print Assumptions C33_reduce_empty.
Print Assumptions C33_std.
Print Assumptions C33_prod_partial.
Print Assumptions C33_prod_empty.
Print Assumptions C33_prod_int.
Print Assumptions C33_prod_int_refuted.
Print Assumptions C34_clip.
Print Assumptions C34_clip_bounds.
Print Assumptions C35_vacuum.
Print Assumptions C35_vacuum_finite.
Print Assumptions C35_vacuum_idempotent.
Print Assumptions C35_vacuum_negative_refuted.
Print Assumptions C35_vacuum_error.
Print Assumptions C36_cut_missing.
Print Assumptions C36_cut_missing_none.
Print Assumptions C36_cut_missing_none_refuted.
Print Assumptions C36_cut_missing_error.
Print Assumptions C37_push.
Print Assumptions C37_push_axis.
Print Assumptions C37_push_error.
