(** When maplabel, flipaxis, swapaxes, insertaxis and lag succeed. *)
From Verif Require Export ExactMove.

Lemma py_axis_err y axis : (forall ax, ~ axis_is y axis ax) -> py_axis y axis = Err IndexError.
Proof.
  intros H. destruct (py_axis y axis) as [ax|e] eqn:E; [by apply py_axis_is, H in E|].
  unfold py_axis in E. destruct (py_index _ _); [done|]. by injection E as <-.
Qed.
Lemma axis_is_label y axis ax : axis_is y axis ax -> exists l, llabel y !! ax = Some l.
Proof. intros [H _]. by apply lookup_lt_is_Some_2. Qed.

Lemma maplabel_total y f : (exists z, maplabel y f None = Ok z) /\
  (forall axis ax, axis_is y axis ax -> exists z, maplabel y f (Some axis) = Ok z) /\
  (forall axis, (forall ax, ~ axis_is y axis ax) -> maplabel y f (Some axis) = Err IndexError).
Proof.
  split; [by eexists|]. split; intros axis.
  - intros ax Hax. destruct (axis_is_label _ _ _ Hax) as [l Hl]. apply py_axis_is in Hax. unfold maplabel. rewrite Hax. simpl.
    unfold axis_label. rewrite Hl. by eexists.
  - intros H. unfold maplabel. by rewrite (py_axis_err _ _ H).
Qed.
Lemma flipaxis_error y axis : (forall ax, ~ axis_is y axis ax) -> flipaxis y (Some axis) = Err IndexError.
Proof. intros H. unfold flipaxis, axes_of. simpl. unfold flip_one. by rewrite (py_axis_err _ _ H). Qed.
Lemma swapaxes_error y a1 a2 : (forall ax, ~ axis_is y a1 ax) \/ (forall ax, ~ axis_is y a2 ax) -> swapaxes y a1 a2 = Err IndexError.
Proof.
  unfold swapaxes. destruct (py_axis y a1) as [i|e] eqn:E1.
  - intros [H|H]; [by apply py_axis_is, H in E1|]. simpl. by rewrite (py_axis_err _ _ H).
  - intros _. simpl. unfold py_axis in E1. destruct (py_index _ _); [done|]. by injection E1 as <-.
Qed.
Lemma lag_error y nlag axis : (lag y nlag None = Err IndexError) /\
  (nlag <> 0%Z -> (forall ax, ~ axis_is y axis ax) -> lag y nlag (Some axis) = Err IndexError).
Proof.
  split; [done|]. intros Hn H. unfold lag. cbn [of_opt mbind res_bind]. rewrite !(py_axis_err _ _ H).
  destruct (decide (0 < nlag)%Z); [done|]. rewrite decide_True by lia. done.
Qed.

(** [insertaxis] with an axis out of range. *)
Lemma insertaxis_above y axis name : valid y -> (Z.of_nat (lndim y) <= axis)%Z ->
  insertaxis y (Some axis) name = insertaxis y (Some (Z.of_nat (lndim y))) name.
Proof.
  intros Hv Hax. pose proof (valid_ndim y Hv) as Hn. unfold insertaxis, expand_dims. cbn [of_opt mbind res_bind].
  change (ndim (larr y)) with (lndim y). rewrite Hn. 
  assert (clamp_pos (lndim y) (if decide (axis < 0)%Z then (axis + Z.of_nat (lndim y) + 1)%Z else axis) = lndim y) as ->
    by (unfold clamp_pos; repeat case_decide; lia).
  assert (clamp_pos (lndim y) (if decide (axis = -1)%Z then Z.of_nat (lndim y) else if decide (axis < -1)%Z then (axis + 1)%Z else axis) = lndim y) as ->
    by (unfold clamp_pos; repeat case_decide; lia).
  assert (clamp_pos (lndim y) (if decide (Z.of_nat (lndim y) < 0)%Z then (Z.of_nat (lndim y) + Z.of_nat (lndim y) + 1)%Z else Z.of_nat (lndim y)) = lndim y) as ->
    by (unfold clamp_pos; repeat case_decide; lia).
  assert (clamp_pos (lndim y) (if decide (Z.of_nat (lndim y) = -1)%Z then Z.of_nat (lndim y) else if decide (Z.of_nat (lndim y) < -1)%Z then (Z.of_nat (lndim y) + 1)%Z else Z.of_nat (lndim y)) = lndim y) as ->
    by (unfold clamp_pos; repeat case_decide; lia).
  done.
Qed.
Lemma insertaxis_below y axis name : valid y -> (axis < - Z.of_nat (lndim y) - 1)%Z ->
  (forall z, insertaxis y (Some axis) name = Ok z <->
    (forall k, (Z.of_nat k < axis + 2 * Z.of_nat (lndim y) + 1)%Z -> lshape y !! k = Some 1) /\
    insertaxis y (Some 0%Z) name = Ok z) /\
  ((exists z, insertaxis y (Some axis) name = Ok z) \/ insertaxis y (Some axis) name = Err ValueError).
Proof.
  intros Hv Hax. pose proof (valid_ndim y Hv) as Hn.
  set (k0 := Z.to_nat (axis + 2 * Z.of_nat (lndim y) + 1)).
  assert (He : insertaxis y (Some axis) name =
    make (Nda (ldtype y) (Arr (insert_at k0 1 (lshape y)) (data (larr y)))) (Some ([name] :: llabel y))).
  { unfold insertaxis, expand_dims. cbn [of_opt mbind res_bind]. change (ndim (larr y)) with (lndim y). change (shape (larr y)) with (lshape y).
    rewrite Hn. do 2 f_equal.
    - do 2 f_equal. unfold clamp_pos, k0. repeat case_decide; lia.
    - assert (clamp_pos (lndim y) (if decide (axis = -1)%Z then Z.of_nat (lndim y) else if decide (axis < -1)%Z then (axis + 1)%Z else axis) = 0) as ->;
        [unfold clamp_pos; repeat case_decide; lia|]. done. }
  assert (H0 : insertaxis y (Some 0%Z) name = make (Nda (ldtype y) (Arr (1 :: lshape y) (data (larr y)))) (Some ([name] :: llabel y))).
  { unfold insertaxis, expand_dims. cbn [of_opt mbind res_bind]. done. }
  assert (Hlt : k0 < lndim y \/ k0 = 0) by lia.
  assert (Hins : (forall k, (Z.of_nat k < axis + 2 * Z.of_nat (lndim y) + 1)%Z -> lshape y !! k = Some 1) <-> insert_at k0 1 (lshape y) = 1 :: lshape y).
  { assert ((forall k, (Z.of_nat k < axis + 2 * Z.of_nat (lndim y) + 1)%Z -> lshape y !! k = Some 1) <-> forall k, k < k0 -> lshape y !! k = Some 1) as ->.
    { unfold k0. split; intros H k Hk; apply H; lia. }
    assert (k0 <= length (lshape y)) as Hle. { change (length (lshape y)) with (lndim y). lia. }
    clear -Hle. generalize dependent k0. induction (lshape y) as [|n sh IH]; intros k0 Hle; destruct k0 as [|k0]; simpl in Hle.
    - split; [done|]. intros _ k Hk. lia.
    - lia.
    - split; [done|]. intros _ k Hk. lia.
    - change (insert_at (S k0) 1 (n :: sh)) with (n :: insert_at k0 1 sh). split.
      + intros H. pose proof (H 0 ltac:(lia)) as H1. injection H1 as ->. f_equal. apply IH; [lia|]. intros k Hk. apply (H (S k)). lia.
      + intros [= -> H]. pose proof (proj2 (IH k0 ltac:(lia)) H) as H'. intros [|k] Hk; [done|]. apply H'. lia. }
  rewrite He, H0. split.
  - assert (Hlen : length <$> ([name] :: llabel y) = 1 :: lshape y) by (rewrite fmap_cons, (valid_shape y Hv); done).
    intros z. rewrite Hins, !make_some_ok, Hlen. unfold nd_shape. cbn [nd_arr shape]. split.
    + intros (-> & Hne & Hs & Hd). rewrite <-Hs. done.
    + intros [Hi (-> & Hne & Hs & Hd)]. rewrite Hi. done.
  - destruct (make _ _) as [z|e] eqn:E; [left; by exists z|right; by apply make_err in E as ->].
Qed.
Lemma insertaxis_none y name : insertaxis y None name = Err ValueError.
Proof. done. Qed.
