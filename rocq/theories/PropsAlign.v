(** Properties C16-C19, C23, C24, C27, C38, C57: alignment by label
    (la/deflarry.py morph, morph_like, merge, sortaxis; la/flarry.py align,
    align_axis, isaligned, union, intersection; la/missing.py). *)
From Verif Require Import AlignMore MergeFacts Exact.
From Verif Require Import PropsLarry.

(** Larrys used in the examples. *)
Definition exn : larry :=
  Larry (Nda DFloat (Arr [3] [vf 1; VFloat NaN; vf 3])) [[LStr "a"; LStr "d"; LStr "c"]].
Definition ex3 : larry :=
  Larry (Nda DInt (Arr [2; 2] (VInt <$> [7; 8; 9; 10]%Z))) [[LStr "y"; LStr "w"]; [LInt 9; LInt 11]].
Example exn_valid : valid exn.
Proof. solve_valid. Qed.
Example ex3_valid : valid ex3.
Proof. solve_valid. Qed.

(** C16: morph. *)
Theorem C16_morph : forall y label axis z,
  valid y -> morph y label axis = Ok z ->
  exists ax old, axis_is y axis ax /\ llabel y !! ax = Some old /\
  NoDup label /\ llabel z = <[ax := label]> (llabel y) /\ realigned y z /\
  ldtype z = (if decide (label = old \/ label <> [] /\ Forall (fun l => l ∈ old) label)
              then ldtype y else missing_dtype (ldtype y)).
Proof. setoid_rewrite <-py_axis_is. exact morph_spec. Qed.
Theorem C16_morph_succeeds : forall y label axis,
  valid y -> (exists z, morph y label axis = Ok z) <-> (exists ax, axis_is y axis ax) /\ NoDup label.
Proof. exact morph_iff. Qed.
Theorem C16_morph_duplicate : forall y label axis ax,
  valid y -> axis_is y axis ax -> ~ NoDup label -> morph y label axis = Err IndexError.
Proof. setoid_rewrite <-py_axis_is. exact morph_dup. Qed.
Theorem C16_morph_bad_axis : forall y label axis,
  valid y -> (forall ax, ~ axis_is y axis ax) -> morph y label axis = Err IndexError.
Proof. setoid_rewrite <-py_axis_is. exact morph_bad_axis. Qed.
Example C16_example :
  morph ex2 [LInt 5; LInt 6; LInt 7] (-1) =
  Ok (Larry (Nda DFloat (Arr [2; 3] [vf 3; VFloat NaN; vf 1; vf 6; VFloat NaN; vf 4]))
        [[LStr "x"; LStr "y"]; [LInt 5; LInt 6; LInt 7]]) /\
  ldtype <$> morph ex2 [LInt 5; LInt 9] 1 = Ok DInt /\
  morph ex2 [LInt 5; LInt 5] 1 = Err IndexError.
Proof. vm_compute. done. Qed.

(** C17: morph_like. *)
Theorem C17_morph_like : forall y lar,
  valid y -> valid lar -> lndim y = lndim lar ->
  exists z, morph_like y lar = Ok z /\ llabel z = llabel lar /\ realigned y z.
Proof. exact morph_like_spec. Qed.
Theorem C17_morph_like_ndim : forall y lar,
  lndim y <> lndim lar -> morph_like y lar = Err IndexError.
Proof. exact morph_like_ndim. Qed.
Example C17_example :
  morph_like ex2 ex3 =
  Ok (Larry (Nda DFloat (Arr [2; 2] [vf 5; VFloat NaN; VFloat NaN; VFloat NaN])) (llabel ex3)).
Proof. vm_compute. done. Qed.

(** C18: merge. *)
Theorem C18_merge : forall y1 y2 update z,
  valid y1 -> valid y2 -> no_inf y1 -> no_inf y2 -> larry_merge y1 y2 update = Ok z ->
  lndim y1 = lndim y2 /\ valid z /\ merge_labels y1 y2 z /\
  (ldtype z = ldtype y1 \/ ldtype z = missing_dtype (ldtype y1)) /\
  (forall ls, in_grid (llabel z) ls ->
     cell z ls = Some (match data_at y2 ls, data_at y1 ls with
                       | Some v, _ => cast_to (ldtype z) v
                       | None, Some v => cast_to (ldtype z) v
                       | None, None => missing_mark (ldtype z)
                       end)) /\
  (update = false -> forall ls, ~ (is_Some (data_at y1 ls) /\ is_Some (data_at y2 ls))).
Proof. exact merge_spec. Qed.
(** Without a condition on the values: what merge takes for data of the second
    larry excludes infinities, everything else of the first larry stays. *)
Theorem C18_merge_any : forall y1 y2 update z,
  valid y1 -> valid y2 -> larry_merge y1 y2 update = Ok z ->
  lndim y1 = lndim y2 /\ valid z /\ merge_labels y1 y2 z /\ ldtype z = joined_dtype y1 y2 /\
  (forall ls, in_grid (llabel z) ls ->
     cell z ls = Some (match solid_at y2 ls, cell y1 ls with
                       | Some v, _ => cast_to (ldtype z) v
                       | None, Some v => cast_to (ldtype z) v
                       | None, None => missing_mark (ldtype z)
                       end)).
Proof. exact merge_any. Qed.
Theorem C18_merge_succeeds : forall y1 y2 update,
  valid y1 -> valid y2 ->
  (exists z, larry_merge y1 y2 update = Ok z) <->
  lndim y1 = lndim y2 /\
  (forall i l1 l2, llabel y1 !! i = Some l1 -> llabel y2 !! i = Some l2 -> l1 = l2 \/ all_comparable (l1 ++ l2)) /\
  mergeable (ldtype y1) (ldtype y2) /\
  (update = true \/ forall ls, ~ (is_Some (solid_at y1 ls) /\ is_Some (solid_at y2 ls))) /\
  ((forall ls, solid_at y2 ls = None) \/ dtype_fits (joined_dtype y2 y1) (joined_dtype y1 y2)).
Proof. exact merge_iff. Qed.
Theorem C18_merge_conflict : forall y1 y2,
  valid y1 -> valid y2 -> lndim y1 = lndim y2 ->
  (forall i l1 l2, llabel y1 !! i = Some l1 -> llabel y2 !! i = Some l2 -> l1 = l2 \/ all_comparable (l1 ++ l2)) ->
  mergeable (ldtype y1) (ldtype y2) ->
  (exists ls, is_Some (solid_at y1 ls) /\ is_Some (solid_at y2 ls)) ->
  larry_merge y1 y2 false = Err ValueError.
Proof. exact merge_clash. Qed.
Theorem C18_merge_ndim : forall y1 y2 update, lndim y1 <> lndim y2 -> larry_merge y1 y2 update = Err IndexError.
Proof. exact merge_ndim. Qed.
(** Infinities count as missing: an infinite value of the second larry is
    dropped, and no conflict is reported. *)
Theorem C18_merge_infinity_refuted : exists y1 y2 z ls,
  valid y1 /\ valid y2 /\ larry_merge y1 y2 true = Ok z /\
  data_at y1 ls = None /\ data_at y2 ls = Some (VFloat PInf) /\ cell z ls = Some (VFloat NaN).
Proof.
  exists (Larry (Nda DFloat (Arr [1] [VFloat NaN])) [[LStr "a"]]),
         (Larry (Nda DFloat (Arr [1] [VFloat PInf])) [[LStr "a"]]),
         (Larry (Nda DFloat (Arr [1] [VFloat NaN])) [[LStr "a"]]), [LStr "a"].
  split; [solve_valid|]. split; [solve_valid|]. vm_compute. done.
Qed.
(** Two int larrys, the first having all the labels of the second and more:
    the second becomes float when it is aligned, the first stays int, and
    storing floats in it raises TypeError although nothing is missing. *)
Theorem C18_merge_int_refuted : exists y1 y2,
  valid y1 /\ valid y2 /\ lndim y1 = lndim y2 /\
  (forall i l1 l2, llabel y1 !! i = Some l1 -> llabel y2 !! i = Some l2 -> l1 = l2 \/ all_comparable (l1 ++ l2)) /\
  ldtype y1 = DInt /\ ldtype y2 = DInt /\ larry_merge y1 y2 true = Err TypeError.
Proof.
  exists (Larry (Nda DInt (Arr [2] [VInt 1; VInt 2])) [[LStr "a"; LStr "b"]]),
         (Larry (Nda DInt (Arr [1] [VInt 3])) [[LStr "b"]]).
  split; [solve_valid|]. split; [solve_valid|]. split; [done|]. split.
  { intros [|i] l1 l2; [|done]. intros [= <-] [= <-]. right. by refine (proj1 (sortable_spec _) _). }
  vm_compute. done.
Qed.
Example C18_example :
  larry_merge exn ex1 false = Err ValueError /\
  larry_merge exn ex1 true =
    Ok (Larry (Nda DFloat (Arr [4] [vf 20; vf 10; vf 30; VFloat NaN])) [[LStr "a"; LStr "b"; LStr "c"; LStr "d"]]) /\
  data_at exn [LStr "d"] = None /\ data_at exn [LStr "c"] = Some (vf 3).
Proof. vm_compute. done. Qed.

Example C18_any_example :
  let y1 := Larry (Nda DFloat (Arr [2] [VFloat PInf; vf 1])) [[LStr "a"; LStr "b"]] in
  let y2 := Larry (Nda DInt (Arr [2] [VInt 4; VInt 5])) [[LStr "c"; LStr "a"]] in
  larry_merge y1 y2 false =
    Ok (Larry (Nda DFloat (Arr [3] [vf 5; vf 1; vf 4])) [[LStr "a"; LStr "b"; LStr "c"]]) /\
  solid_at y1 [LStr "a"] = None /\ data_at y1 [LStr "a"] = Some (VFloat PInf) /\
  joined_dtype y2 y1 = DFloat /\ joined_dtype y1 y2 = DFloat.
Proof. cbv zeta. vm_compute. done. Qed.

(** C19: align. *)
Theorem C19_align : forall y1 y2 j cast z1 z2,
  valid y1 -> valid y2 -> align y1 y2 j cast = Ok (z1, z2) ->
  lndim y1 = lndim y2 /\ realigned y1 z1 /\ realigned y2 z2 /\
  length (llabel z1) = length (llabel y1) /\ length (llabel z2) = length (llabel y2) /\
  (exists js, joins_are (lndim y2) j js /\
     forall i l1 l2 r1 r2, llabel y1 !! i = Some l1 -> llabel y2 !! i = Some l2 ->
       llabel z1 !! i = Some r1 -> llabel z2 !! i = Some r2 ->
       exists ji, js !! i = Some ji /\ join_label ji l1 l2 r1 r2) /\
  (cast = false -> ldtype z1 = ldtype y1 /\ ldtype z2 = ldtype y2) /\
  (no_new_label y1 z1 -> ldtype z1 = ldtype y1) /\ (no_new_label y2 z2 -> ldtype z2 = ldtype y2).
Proof. exact align_spec. Qed.
Theorem C19_align_succeeds : forall y1 y2 j cast js,
  valid y1 -> valid y2 -> lndim y1 = lndim y2 -> joins_are (lndim y2) j js ->
  (exists z1 z2, align y1 y2 j cast = Ok (z1, z2)) <->
  (forall i ji l1 l2, js !! i = Some ji -> llabel y1 !! i = Some l1 -> llabel y2 !! i = Some l2 ->
     joinable ji l1 l2 /\ fillable cast (ldtype y1) ji l1 l2 /\ fillable cast (ldtype y2) (join_mirror ji) l2 l1).
Proof. exact align_iff. Qed.
Theorem C19_align_ndim : forall y1 y2 j cast, lndim y1 <> lndim y2 -> align y1 y2 j cast = Err ValueError.
Proof. exact align_ndim. Qed.
Theorem C19_align_join_length : forall y1 y2 js cast,
  lndim y1 = lndim y2 -> length js <> lndim y2 -> align y1 y2 (JList js) cast = Err ValueError.
Proof. exact align_join_length. Qed.
Theorem C19_align_join_type : forall y1 y2 cast,
  lndim y1 = lndim y2 -> align y1 y2 JOther cast = Err TypeError.
Proof. exact align_join_type. Qed.
(** An outer join with an axis of length zero raises IndexError. *)
Theorem C19_align_empty_refuted : exists y1 y2,
  valid y1 /\ valid y2 /\ lndim y1 = lndim y2 /\ ldtype y1 = DFloat /\ ldtype y2 = DFloat /\
  align y1 y2 (JOne JOuter) true = Err IndexError.
Proof.
  exists (Larry (Nda DFloat (Arr [0] [])) [[]]), (Larry (Nda DFloat (Arr [1] [vf 1])) [[LStr "a"]]).
  split; [solve_valid|]. split; [solve_valid|]. vm_compute. done.
Qed.
Example C19_example :
  align ex2 ex3 (JList [JInner; JOuter]) true =
    Ok (Larry (Nda DFloat (Arr [1; 4] [vf 6; vf 4; vf 5; VFloat NaN]))
          [[LStr "y"]; [LInt 5; LInt 7; LInt 9; LInt 11]],
        Larry (Nda DFloat (Arr [1; 4] [VFloat NaN; VFloat NaN; vf 7; vf 8]))
          [[LStr "y"]; [LInt 5; LInt 7; LInt 9; LInt 11]]) /\
  align ex2 ex3 (JOne JOuter) false = Err TypeError /\
  align ex2 ex3 (JList [JSkip; JInner]) false =
    Ok (Larry (Nda DInt (Arr [2; 1] [VInt 2; VInt 5])) [[LStr "x"; LStr "y"]; [LInt 9]],
        Larry (Nda DInt (Arr [2; 1] [VInt 7; VInt 9])) [[LStr "y"; LStr "w"]; [LInt 9]]).
Proof. vm_compute. done. Qed.

(** C23: align_axis. *)
Theorem C23_align_axis : forall lars axes j zs,
  Forall valid lars -> align_axis lars axes j = Ok zs -> length axes = length lars ->
  (j = JLeft \/ j = JRight \/ exists a, forall i, i < length lars -> axes !! i = Some a) ->
  exists u, common_label lars axes j u /\ length zs = length lars /\
  forall i y z, lars !! i = Some y -> zs !! i = Some z ->
    exists a ax old, axes !! i = Some a /\ axis_is y a ax /\ llabel y !! ax = Some old /\
    llabel z = <[ax := u]> (llabel y) /\ realigned y z.
Proof. exact align_axis_full. Qed.
Theorem C23_align_axis_succeeds : forall lars axes j,
  Forall valid lars -> length axes = length lars ->
  (exists zs, align_axis lars axes j = Ok zs) <->
  lars <> [] /\ j <> JSkip /\ j <> JBad /\
  (forall i y a, lars !! i = Some y -> axes !! i = Some a -> exists ax, axis_is y a ax) /\
  (j = JInner \/ j = JOuter ->
   (forall i, i < length lars -> exists l, consulted lars axes i l) /\
   forall a b, join_consulted lars axes j a -> join_consulted lars axes j b -> a = b \/ comparable a b = true).
Proof. exact align_axis_iff. Qed.
(** What the inner and outer joins do with any axes: the labels of a larry are
    read along the axis given for the larry before it, and then put on its own
    axis. *)
Theorem C23_align_axis_any : forall lars axes j zs,
  Forall valid lars -> length axes = length lars -> j = JInner \/ j = JOuter -> align_axis lars axes j = Ok zs ->
  exists u, StronglySorted lab_lt u /\ (forall x, x ∈ u <-> join_consulted lars axes j x) /\ length zs = length lars /\
  forall i y z, lars !! i = Some y -> zs !! i = Some z ->
    exists a ax old, axes !! i = Some a /\ axis_is y a ax /\ llabel y !! ax = Some old /\
    llabel z = <[ax := u]> (llabel y) /\ realigned y z.
Proof. exact align_axis_any. Qed.
(** With different axes the inner join looks at the wrong axis: here the
    labels of both larrys along the chosen axes are equal, but the outputs are
    empty. *)
Theorem C23_align_axis_refuted : exists lars axes zs u,
  Forall valid lars /\ length axes = length lars /\ align_axis lars axes JInner = Ok zs /\
  Forall2 (fun y a => axis_label_is y a u) lars axes /\ u = [LStr "a"; LStr "b"] /\
  (lshape <$> zs) = [[0]; [3; 0]].
Proof.
  set (y0 := Larry (Nda DFloat (Arr [2] [vf 1; vf 2])) [[LStr "a"; LStr "b"]]).
  set (y1 := Larry (Nda DFloat (Arr [3; 2] (vf <$> [1; 2; 3; 4; 5; 6]%Z))) [[LInt 1; LInt 2; LInt 3]; [LStr "a"; LStr "b"]]).
  eexists [y0; y1], [0%Z; 1%Z], _, _. split; [repeat constructor; solve_valid|]. split; [done|].
  split; [vm_compute; reflexivity|]. split; [|done].
  constructor; [exists 0; split; [split; [simpl; lia|by left]|reflexivity]|].
  constructor; [exists 1; split; [split; [simpl; lia|by left]|reflexivity]|constructor].
Qed.
Example C23_example :
  align_axis [ex1; exn] [0; 0]%Z JInner =
    Ok [Larry (Nda DFloat (Arr [2] [vf 20; vf 30])) [[LStr "a"; LStr "c"]];
        Larry (Nda DFloat (Arr [2] [vf 1; vf 3])) [[LStr "a"; LStr "c"]]] /\
  (zs ← align_axis [ex1; exn] [0; -1]%Z JRight; Ok (map llabel zs)) = Ok [llabel exn; llabel exn].
Proof. vm_compute. done. Qed.

(** The labels of the second larry are read along axis 0, the axis of the first. *)
Example C23_any_example :
  let y0 := Larry (Nda DInt (Arr [2] [VInt 1; VInt 2])) [[LStr "a"; LStr "b"]] in
  let y1 := Larry (Nda DInt (Arr [2; 2] (VInt <$> [1; 2; 3; 4]%Z))) [[LStr "b"; LStr "x"]; [LStr "a"; LStr "b"]] in
  align_axis [y0; y1] [0; 1]%Z JInner =
    Ok [Larry (Nda DInt (Arr [1] [VInt 2])) [[LStr "b"]];
        Larry (Nda DInt (Arr [2; 1] (VInt <$> [2; 4]%Z))) [[LStr "b"; LStr "x"]; [LStr "b"]]] /\
  align_axis [y1; y0] [1; 0]%Z JInner = Err IndexError.
Proof. vm_compute. done. Qed.

(** C24: union and intersection. *)
Theorem C24_union : forall axis args u,
  union_labels axis args = Ok u ->
  StronglySorted lab_lt u /\ Forall (fun y => exists l, axis_label_is y axis l) args /\
  forall x, x ∈ u <-> exists y l, y ∈ args /\ axis_label_is y axis l /\ x ∈ l.
Proof. exact union_spec. Qed.
Theorem C24_union_succeeds : forall axis args,
  (exists u, union_labels axis args = Ok u) <->
  Forall (fun y => exists l, axis_label_is y axis l) args /\ all_sortable axis args.
Proof. exact union_iff. Qed.
Theorem C24_intersection : forall axis args u,
  intersection_labels axis args = Ok u ->
  args <> [] /\ StronglySorted lab_lt u /\ Forall (fun y => exists l, axis_label_is y axis l) args /\
  forall x, x ∈ u <-> forall y, y ∈ args -> exists l, axis_label_is y axis l /\ x ∈ l.
Proof. exact intersection_spec. Qed.
Theorem C24_intersection_succeeds : forall axis args,
  (exists u, intersection_labels axis args = Ok u) <->
  args <> [] /\ Forall (fun y => exists l, axis_label_is y axis l) args /\
  forall a b, (forall y l, y ∈ args -> axis_label_is y axis l -> a ∈ l /\ b ∈ l) -> a = b \/ comparable a b = true.
Proof. exact intersection_iff. Qed.
Theorem C24_union_order : forall axis args args' u u',
  args ≡ₚ args' -> union_labels axis args = Ok u -> union_labels axis args' = Ok u' -> u = u'.
Proof. exact union_perm. Qed.
Theorem C24_intersection_order : forall axis args args' u u',
  args ≡ₚ args' -> intersection_labels axis args = Ok u -> intersection_labels axis args' = Ok u' -> u = u'.
Proof. exact intersection_perm. Qed.
Example C24_example :
  union_labels 0 [ex1; exn] = Ok [LStr "a"; LStr "b"; LStr "c"; LStr "d"] /\
  intersection_labels (-1) [ex3; ex2] = Ok [LInt 9].
Proof. vm_compute. done. Qed.

(** C27: sortaxis. *)
Theorem C27_sortaxis : forall y axis (reverse : bool) z,
  valid y -> sortaxis y axis reverse = Ok z ->
  valid z /\ ldtype z = ldtype y /\ length (llabel z) = length (llabel y) /\
  (forall ls, cell z ls = cell y ls) /\
  forall ax l l', llabel y !! ax = Some l -> llabel z !! ax = Some l' ->
    l' ≡ₚ l /\ (axis_selected y axis ax -> sorted_dir reverse l') /\ (~ axis_selected y axis ax -> l' = l).
Proof. exact sortaxis_full. Qed.
Theorem C27_sortaxis_succeeds : forall y axis (reverse : bool),
  valid y ->
  (exists z, sortaxis y axis reverse = Ok z) <->
  (forall a, axis = Some a -> exists ax, axis_is y a ax) /\
  (forall ax l, axis_selected y axis ax -> llabel y !! ax = Some l -> all_comparable l).
Proof. exact sortaxis_iff. Qed.
Theorem C27_sortaxis_idempotent : forall y axis (reverse : bool) z,
  valid y -> sortaxis y axis reverse = Ok z -> sortaxis z axis reverse = Ok z.
Proof. exact sortaxis_idem. Qed.
Theorem C27_sortaxis_order : forall y1 y2 axis (reverse : bool) z1 z2,
  valid y1 -> valid y2 -> ldtype y1 = ldtype y2 -> length (llabel y1) = length (llabel y2) ->
  (forall ax l1 l2, llabel y1 !! ax = Some l1 -> llabel y2 !! ax = Some l2 ->
     l1 ≡ₚ l2 /\ (~ axis_selected y1 axis ax -> l1 = l2)) ->
  (forall ls, cell y1 ls = cell y2 ls) ->
  sortaxis y1 axis reverse = Ok z1 -> sortaxis y2 axis reverse = Ok z2 -> z1 = z2.
Proof. exact sortaxis_order. Qed.
Example C27_example :
  sortaxis ex2 None true =
  Ok (Larry (Nda DInt (Arr [2; 3] (VInt <$> [5; 4; 6; 2; 1; 3]%Z))) [[LStr "y"; LStr "x"]; [LInt 9; LInt 7; LInt 5]]).
Proof. vm_compute. done. Qed.

(** C38: ismissing, nan_replace, nans. *)
Theorem C38_ismissing : forall y,
  valid y -> let z := larry_ismissing y in
  valid z /\ llabel z = llabel y /\ ldtype z = DBool /\
  forall ls, cell z ls = (fun v => VBool (bool_decide (marker (ldtype y) = Some v))) <$> cell y ls.
Proof. exact larry_ismissing_spec. Qed.
Theorem C38_nan_replace : forall y v z,
  valid y -> nan_replace y v = Ok z ->
  valid z /\ llabel z = llabel y /\ ldtype z = ldtype y /\ (ldtype y <> DFloat -> z = y) /\
  (ldtype y = DFloat -> exists n, to_num v = Some n /\
     forall ls, cell z ls = (fun u => if decide (u = VFloat NaN) then VFloat n else u) <$> cell y ls).
Proof. exact nan_replace_spec. Qed.
Theorem C38_nan_replace_succeeds : forall y v,
  (exists z, nan_replace y v = Ok z) <-> ((ldtype y = DFloat \/ ldtype y = DInt) -> is_Some (to_num v)).
Proof. exact nan_replace_iff. Qed.
Theorem C38_nan_replace_error : forall y v e, nan_replace y v = Err e -> e = TypeError.
Proof. exact nan_replace_err. Qed.
Theorem C38_nans : forall sh dt x,
  nans sh dt = Ok x -> exists m, marker dt = Some m /\ nda_wf x /\ nd_dtype x = dt /\ nd_shape x = sh /\
  forall idx, in_range sh idx -> aget (nd_arr x) idx = Some m.
Proof. exact nans_spec. Qed.
Theorem C38_nans_succeeds : forall sh dt, (exists x, nans sh dt = Ok x) <-> is_Some (marker dt).
Proof. exact nans_ok. Qed.
Theorem C38_nans_error : forall sh dt, marker dt = None -> nans sh dt = Err TypeError.
Proof. exact nans_err. Qed.
Example C38_example :
  larry_ismissing exn = Larry (Nda DBool (Arr [3] [VBool false; VBool true; VBool false])) (llabel exn) /\
  nan_replace exn (VInt 4) = Ok (Larry (Nda DFloat (Arr [3] [vf 1; vf 4; vf 3])) (llabel exn)) /\
  nan_replace ex2 (VInt 4) = Ok ex2 /\ nan_replace ex2 (VStr "") = Err TypeError /\
  nans [2] DStr = Ok (Nda DStr (Arr [2] [VStr ""; VStr ""])) /\ nans [2] DInt = Err TypeError.
Proof. vm_compute. done. Qed.

(** C57: isaligned. *)
Theorem C57_isaligned_all : forall y1 y2, isaligned y1 y2 None = Ok (bool_decide (llabel y1 = llabel y2)).
Proof. exact isaligned_all. Qed.
Theorem C57_isaligned_axis : forall y1 y2 axis b,
  isaligned y1 y2 (Some axis) = Ok b <->
  exists l1 l2, axis_label_is y1 axis l1 /\ axis_label_is y2 axis l2 /\ b = bool_decide (l1 = l2).
Proof. exact isaligned_axis. Qed.
Example C57_example :
  isaligned ex1 exn None = Ok false /\ isaligned ex2 ex3 (Some (-1)%Z) = Ok false /\
  isaligned ex1 (Larry (lx exn) (llabel ex1)) (Some 0%Z) = Ok true /\ isaligned ex1 exn (Some 1%Z) = Err IndexError.
Proof. vm_compute. done. Qed.

Print Assumptions C16_morph.
Print Assumptions C16_morph_succeeds.
Print Assumptions C16_morph_duplicate.
Print Assumptions C16_morph_bad_axis.
Print Assumptions C17_morph_like.
Print Assumptions C17_morph_like_ndim.
Print Assumptions C18_merge.
Print Assumptions C18_merge_any.
Print Assumptions C18_merge_succeeds.
Print Assumptions C18_merge_conflict.
Print Assumptions C18_merge_ndim.
Print Assumptions C18_merge_infinity_refuted.
Print Assumptions C18_merge_int_refuted.
Print Assumptions C19_align.
Print Assumptions C19_align_succeeds.
Print Assumptions C19_align_ndim.
Print Assumptions C19_align_join_length.
Print Assumptions C19_align_join_type.
Print Assumptions C19_align_empty_refuted.
Print Assumptions C23_align_axis.
Print Assumptions C23_align_axis_succeeds.
Print Assumptions C23_align_axis_any.
Print Assumptions C23_align_axis_refuted.
Print Assumptions C24_union.
Print Assumptions C24_union_succeeds.
Print Assumptions C24_intersection.
Print Assumptions C24_intersection_succeeds.
Print Assumptions C24_union_order.
Print Assumptions C24_intersection_order.
Print Assumptions C27_sortaxis.
Print Assumptions C27_sortaxis_succeeds.
Print Assumptions C27_sortaxis_idempotent.
Print Assumptions C27_sortaxis_order.
Print Assumptions C38_ismissing.
Print Assumptions C38_nan_replace.
Print Assumptions C38_nan_replace_succeeds.
Print Assumptions C38_nan_replace_error.
Print Assumptions C38_nans.
Print Assumptions C38_nans_succeeds.
Print Assumptions C38_nans_error.
Print Assumptions C57_isaligned_all.
Print Assumptions C57_isaligned_axis.
