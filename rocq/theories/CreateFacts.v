(** Lemmas about the creation functions. *)
From Verif Require Export Create NumFacts LarryFacts CovFacts.

Lemma c_order_acc sh idx a : in_range sh idx ->
  fold_left (fun acc (p : nat * nat) => acc * p.1 + p.2) (zip sh idx) a = a * size_of sh + ravel sh idx.
Proof.
  intros H. revert a. induction H as [|i n idx sh Hi H IH]; intros a; simpl; [lia|]. rewrite IH. simpl.
  change (size_of (n :: sh)) with (n * size_of sh). nia.
Qed.
Lemma c_order_ravel sh idx : in_range sh idx -> c_order sh idx = ravel sh idx.
Proof. intros H. unfold c_order. by rewrite c_order_acc. Qed.

Lemma shape_of_ok shape label sh : shape_of shape label = Ok sh <-> new_shape shape label sh.
Proof.
  unfold shape_of, new_shape. destruct label as [l|].
  - split; [by intros [= <-]|by intros ->].
  - by rewrite of_opt_ok.
Qed.
Lemma make_new x shape label z :
  nda_wf x -> new_shape shape label (nd_shape x) -> make x label = Ok z ->
  lx z = x /\ valid z /\ lshape z = nd_shape x /\ new_labels label (nd_shape x) (llabel z).
Proof.
  intros Hwf Hsh Hz. destruct label as [l|].
  - apply make_some_valid in Hz as [-> Hv]; [|done]. split_and!; done.
  - pose proof (make_none_valid x z Hwf Hz) as Hv. apply make_none_ok in Hz as [_ ->]. split_and!; try done.
    simpl. rewrite fmap_length. split; [done|]. intros ax n Hn. exists (range_label n).
    rewrite list_lookup_fmap, Hn. split; [done|]. rewrite range_label_length. split; [done|].
    intros i Hi. rewrite range_label_lookup. by rewrite decide_True.
Qed.
Lemma make_new_ok x shape label :
  creatable shape label (nd_shape x) -> exists z, make x label = Ok z.
Proof.
  intros (Hsh & Hne & Hl). destruct label as [l|].
  - exists (Larry x l). apply make_some_ok. unfold new_shape in Hsh. split_and!; try done. intros ->. by rewrite Hsh in Hne.
  - eexists. apply make_none_ok. split; [|done]. unfold nd_ndim. by destruct (nd_shape x).
Qed.
Lemma creatable_or_err x shape label :
  new_shape shape label (nd_shape x) -> ~ creatable shape label (nd_shape x) -> make x label = Err ValueError.
Proof.
  intros Hsh Hno. destruct (make x label) as [z|e] eqn:E; [|by apply make_err in E as ->]. exfalso. apply Hno.
  destruct label as [l|].
  - apply make_some_ok in E as (-> & Hne & Hs & Hnd). split_and!; try done. rewrite <-Hs. by destruct l.
  - apply make_none_ok in E as [Hne _]. split_and!; try done. unfold nd_ndim in Hne. by destruct (nd_shape x).
Qed.

(** * lrange *)

Lemma lrange_inv shape label start step dt z :
  lrange shape label start step dt = Ok z ->
  exists sh p q vs, new_shape shape label sh /\ to_num start = Some (Fin p) /\ to_num step = Some (Fin q) /\ q <> 0%Qc /\
    let dt' := match dt with Some d => d | None => range_dtype start step end in
    mapM (arange_elem dt' start step) (seq 0 (size_of sh)) = Some vs /\ make (Nda dt' (Arr sh vs)) label = Ok z.
Proof.
  unfold lrange. intros H. apply bind_ok in H as (sh & Hsh & H). apply shape_of_ok in Hsh.
  destruct (to_num start) as [[p| | |]|]; try done. destruct (to_num step) as [[q| | |]|]; try done.
  destruct (decide (q = 0%Qc)); [done|]. apply bind_ok in H as (vs & Hvs & H). apply of_opt_ok in Hvs. eauto 10.
Qed.
Lemma arange_typed dt start step k v : arange_elem dt start step k = Some v -> has_dtype dt v = true.
Proof.
  destruct dt; try done; simpl; intros H.
  - destruct (range_elem start step k) as [w|] eqn:E; [|done]. simpl in H. injection H as <-.
    unfold range_elem in E. destruct start, step; try done; simpl in E; by injection E as <-.
  - destruct (range_elem start step 0) as [v0|]; [|done]. destruct (range_elem start step 1) as [v1|]; [|done]. simpl in H.
    repeat case_match; simplify_eq; done.
Qed.
Lemma arange_wf dt start step sh vs :
  mapM (arange_elem dt start step) (seq 0 (size_of sh)) = Some vs -> nda_wf (Nda dt (Arr sh vs)).
Proof.
  intros H. split.
  - unfold arr_wf. simpl. apply mapM_length in H. by rewrite seq_length in H.
  - apply Forall_forall. simpl. intros v Hv. apply elem_of_list_lookup in Hv as [i Hi].
    apply mapM_Some in H. eapply Forall2_lookup_r in H as (k & _ & Hk); [|exact Hi]. by apply arange_typed in Hk.
Qed.
Lemma lrange_cells shape label start step dt z :
  lrange shape label start step dt = Ok z ->
  exists sh p q, new_shape shape label sh /\ to_num start = Some (Fin p) /\ to_num step = Some (Fin q) /\ q <> 0%Qc /\
    let dt' := match dt with Some d => d | None => range_dtype start step end in
    valid z /\ lshape z = sh /\ ldtype z = dt' /\ new_labels label sh (llabel z) /\
    forall idx ls, labels_at (llabel z) idx ls -> exists v, cell z ls = Some v /\ arange_elem dt' start step (c_order sh idx) = Some v.
Proof.
  intros (sh & p & q & vs & Hsh & Hp & Hq & Hne & Hvs & Hz)%lrange_inv.
  pose proof (arange_wf _ _ _ _ _ Hvs) as Hwf.
  destruct (make_new _ shape label z Hwf Hsh Hz) as (Hx & Hv & Hs & Hl).
  exists sh, p, q. split_and!; try done. intros dt'. split_and!; try done; [unfold ldtype; by rewrite Hx|].
  intros idx ls Hls. destruct (valid_cell_at z idx ls Hv Hls) as (v & Hg & Hc0). exists v. split; [done|].
  assert (Hr : in_range sh idx) by (change (lshape z = sh) in Hs; rewrite <-Hs; apply get_in_range in Hg; exact Hg).
  change (larr z) with (nd_arr (lx z)) in Hg. rewrite Hx in Hg. rewrite get_ravel in Hg by done. simpl in Hg.
  apply mapM_Some in Hvs. eapply Forall2_lookup_r in Hvs as (k & Hk & Hv'); [|exact Hg].
  apply lookup_seq in Hk as [-> _]. by rewrite c_order_ravel.
Qed.

(** The arithmetic. *)
Lemma range_elem_num start step k v p q :
  range_elem start step k = Some v -> to_num start = Some p -> to_num step = Some q ->
  to_num v = Some (num_add p (num_mul q (num_of_nat k))).
Proof.
  intros H Hp Hq. destruct start, step; cbn [range_elem to_num mbind option_bind] in *; try done; simplify_eq; cbn [to_num]; try done.
  unfold num_of_nat. by rewrite num_mul_Z, num_add_Z.
Qed.
Lemma arange_num dt start step k v p q :
  dt = range_dtype start step \/ dt = DFloat ->
  arange_elem dt start step k = Some v -> to_num start = Some p -> to_num step = Some q ->
  to_num v = Some (num_add p (num_mul q (num_of_nat k))).
Proof.
  intros Hdt H Hp Hq. destruct dt; try done.
  - simpl in H. destruct (range_elem start step k) as [w|] eqn:E; [|done]. simpl in H. injection H as <-.
    pose proof (range_elem_num _ _ _ _ _ _ E Hp Hq) as Hw. unfold val_to_float. by rewrite Hw.
  - destruct Hdt as [Hdt|Hdt]; [|done]. destruct start, step; try done. cbn in H. cbn [to_num] in Hp, Hq. simplify_eq. cbn [to_num].
    unfold num_of_nat. rewrite num_mul_Z, num_add_Z. do 2 f_equal. lia.
Qed.
Theorem lrange_spec shape label start step dt z :
  lrange shape label start step dt = Ok z -> dt = None \/ dt = Some DFloat \/ dt = Some (range_dtype start step) ->
  exists sh p q, new_shape shape label sh /\ to_num start = Some p /\ to_num step = Some q /\
    valid z /\ lshape z = sh /\ new_labels label sh (llabel z) /\
    ldtype z = match dt with Some d => d | None => range_dtype start step end /\
    forall idx ls, labels_at (llabel z) idx ls -> number_at z ls (num_add p (num_mul q (num_of_nat (c_order sh idx)))).
Proof.
  intros (sh & p & q & Hsh & Hp & Hq & _ & Hv & Hs & Hd & Hl & Hc)%lrange_cells Hdt.
  exists sh, (Fin p), (Fin q). split_and!; try done. intros idx ls Hls. destruct (Hc idx ls Hls) as (v & Hcv & Hr).
  exists v. split; [done|]. eapply arange_num; try done. destruct Hdt as [->|[->| ->]]; auto.
Qed.
Lemma lrange_dtype shape label start step z : lrange shape label start step None = Ok z ->
  ((exists a b, start = VInt a /\ step = VInt b) -> ldtype z = DInt) /\
  (~ (exists a b, start = VInt a /\ step = VInt b) -> ldtype z = DFloat).
Proof.
  intros H. destruct (lrange_spec _ _ _ _ _ _ H (or_introl eq_refl)) as (_ & _ & _ & _ & _ & _ & _ & _ & _ & -> & _). split.
  - by intros (a & b & -> & ->).
  - intros Hn. destruct start, step; try done. destruct Hn. eauto.
Qed.
(** An int array from other arguments: the first two elements decide. *)
Theorem lrange_int_spec shape label start step z :
  lrange shape label start step (Some DInt) = Ok z ->
  exists sh p q v0 v1 a b, new_shape shape label sh /\ to_num start = Some p /\ to_num step = Some q /\ valid z /\ lshape z = sh /\
    new_labels label sh (llabel z) /\ ldtype z = DInt /\
    (size_of sh <> 0 -> to_num v0 = Some p /\ to_num v1 = Some (num_add p q) /\ store DInt v0 = Ok (VInt a) /\ store DInt v1 = Ok (VInt b)) /\
    forall idx ls, labels_at (llabel z) idx ls -> cell z ls = Some (VInt (a + (b - a) * Z.of_nat (c_order sh idx))).
Proof.
  intros H. pose proof H as (sh & p & q & vs & Hsh & Hp & Hq & _ & Hvs & Hz)%lrange_inv.
  apply lrange_cells in H as (sh' & p' & q' & Hsh' & Hp' & Hq' & _ & Hv & Hs & Hd & Hl & Hc).
  assert (sh' = sh) as -> by (unfold new_shape in *; destruct label; congruence). clear Hp' Hq'.
  destruct (decide (size_of sh = 0)) as [Hz0|Hnz].
  - exists sh, (Fin p), (Fin q), (VInt 0), (VInt 0), 0%Z, 0%Z. split_and!; try done. intros idx ls Hls. exfalso.
    destruct (valid_cell_at z idx ls Hv Hls) as (v & Hg & _). apply get_in_range, ravel_lt in Hg.
    change (NDArray.shape (larr z)) with (lshape z) in Hg. rewrite Hs in Hg. lia.
  - assert (exists v, arange_elem DInt start step 0 = Some v) as [v Hv0].
    { apply mapM_Some in Hvs. destruct (size_of sh) as [|n]; [done|]. simpl in Hvs. inversion Hvs; subst. eauto. }
    cbn [arange_elem] in Hv0. destruct (range_elem start step 0) as [v0|] eqn:E0; [|done]. destruct (range_elem start step 1) as [v1|] eqn:E1; [|done].
    cbn [mbind option_bind] in Hv0. destruct (store DInt v0) as [[|a| | | |]|] eqn:S0; try done. destruct (store DInt v1) as [[|b| | | |]|] eqn:S1; try done.
    exists sh, (Fin p), (Fin q), v0, v1, a, b. split_and!; try done.
    + intros _. split_and!; try done.
      * rewrite (range_elem_num _ _ _ _ _ _ E0 Hp Hq). f_equal. change (num_of_nat 0) with (num_of_Z 0).
        unfold num_of_Z. cbn [num_mul num_add]. rewrite Qc_of_Z_0, Qcmult_0_r, Qcplus_0_r. done.
      * rewrite (range_elem_num _ _ _ _ _ _ E1 Hp Hq). change (num_of_nat 1) with (num_of_Z 1). by rewrite num_mul_1_r.
    + intros idx ls Hls. destruct (Hc idx ls Hls) as (w & -> & Hw). f_equal. cbn [arange_elem] in Hw. rewrite E0, E1 in Hw.
      cbn [mbind option_bind] in Hw. rewrite S0, S1 in Hw. by injection Hw as <-.
Qed.
Theorem lrange_ok shape label start step dt sh p q :
  creatable shape label sh -> to_num start = Some (Fin p) -> to_num step = Some (Fin q) -> q <> 0%Qc ->
  has_dtype DBool start = false -> has_dtype DBool step = false -> dt = None \/ dt = Some DFloat \/ dt = Some DInt ->
  exists z, lrange shape label start step dt = Ok z.
Proof.
  intros Hc Hp Hq Hne Hb1 Hb2 Hdt. unfold lrange. rewrite (proj2 (shape_of_ok shape label sh)) by apply Hc.
  cbn [mbind res_bind]. rewrite Hp, Hq. rewrite decide_False by done.
  set (dt' := match dt with Some d => d | None => _ end).
  assert (Hdt' : dt' = DFloat \/ dt' = DInt) by (destruct Hdt as [->|[->| ->]]; unfold dt'; auto; destruct start, step; simpl; auto).
  assert (forall k, exists v, range_elem start step k = Some v /\ exists r, to_num v = Some (Fin r)) as Hr.
  { intros k. destruct start, step; simpl in *; try done; simplify_eq; simpl; eexists; (split; [done|]); simpl; eauto. }
  assert (Hall : forall k, is_Some (arange_elem dt' start step k)).
  { intros k. destruct Hdt' as [-> | ->]; simpl.
    - destruct (Hr k) as (v & -> & _). simpl. eauto.
    - destruct (Hr 0) as (v0 & -> & r0 & H0), (Hr 1) as (v1 & -> & r1 & H1). simpl.
      destruct v0, v1; simpl in *; simplify_eq; simpl; eauto. }
  destruct (mapM (arange_elem dt' start step) (seq 0 (size_of sh))) as [vs|] eqn:E.
  2: { exfalso. apply eq_None_not_Some in E. apply E. apply mapM_is_Some_2. apply Forall_forall. intros; apply Hall. }
  cbn [of_opt mbind res_bind]. by apply (make_new_ok _ shape label).
Qed.
Lemma lrange_neither start step dt : lrange None None start step dt = Err ValueError.
Proof. done. Qed.

(** * empty, ones, zeros and rand *)

Theorem empty_spec f dt shape label z :
  array_source dt f -> larry_empty f shape label = Ok z ->
  exists sh, new_shape shape label sh /\ valid z /\ lshape z = sh /\ ldtype z = dt /\ new_labels label sh (llabel z).
Proof.
  intros Hf H. unfold larry_empty in H. apply bind_ok in H as (sh & Hsh & H). apply shape_of_ok in Hsh.
  destruct (Hf sh) as (Hwf & Hs & Hd). exists sh. rewrite <-Hs in Hsh.
  destruct (make_new _ shape label z Hwf Hsh H) as (Hx & Hv & Hsz & Hl). rewrite Hs in *. split_and!; try done.
  unfold ldtype. by rewrite Hx.
Qed.
Theorem empty_ok f dt shape label sh :
  array_source dt f -> creatable shape label sh -> exists z, larry_empty f shape label = Ok z.
Proof.
  intros Hf Hc. unfold larry_empty. rewrite (proj2 (shape_of_ok shape label sh)) by apply Hc. cbn [mbind res_bind].
  apply (make_new_ok _ shape label). by destruct (Hf sh) as (_ & -> & _).
Qed.
Theorem filled_spec v f dt shape label z :
  array_source dt f -> larry_fill_new v f shape label = Ok z ->
  exists sh w, new_shape shape label sh /\ valid z /\ lshape z = sh /\ ldtype z = dt /\ new_labels label sh (llabel z) /\
    store dt v = Ok w /\ forall ls, in_grid (llabel z) ls -> cell z ls = Some w.
Proof.
  intros Hf H. unfold larry_fill_new in H. apply bind_ok in H as (y & Hy & H).
  apply (empty_spec f dt) in Hy as (sh & Hsh & Hv & Hs & Hd & Hl); [|done].
  apply larry_fill_spec in H as (Hv' & Hl' & Hd' & w & Hw & Hc); [|done]. rewrite Hd in *. exists sh, w. rewrite Hl'.
  split_and!; try done. rewrite <-(valid_shape z Hv'), Hl', (valid_shape y Hv). done.
Qed.
Theorem filled_ok v f dt shape label sh w :
  array_source dt f -> creatable shape label sh -> store dt v = Ok w -> exists z, larry_fill_new v f shape label = Ok z.
Proof.
  intros Hf Hc Hw. destruct (empty_ok f dt shape label sh Hf Hc) as [y Hy]. unfold larry_fill_new. rewrite Hy. cbn [mbind res_bind].
  apply (empty_spec f dt) in Hy as (sh' & _ & _ & _ & Hd & _); [|done]. unfold larry_fill. change (nd_dtype (lx y)) with (ldtype y). rewrite Hd, Hw. simpl. eauto.
Qed.
Theorem rand_spec f dt args label z :
  array_source dt f -> larry_rand f args label = Ok (OLar z) ->
  exists sh, (if decide (args = []) then exists l, label = Some l /\ sh = length <$> l else sh = args) /\
    lx z = f sh /\ valid z /\ lshape z = sh /\ new_labels label sh (llabel z).
Proof.
  intros Hf H. destruct args as [|n args].
  - destruct label as [l|]; simpl in H; [|by destruct (aget _ _)]. apply bind_ok in H as (y & Hy & [= <-]).
    destruct (Hf (length <$> l)) as (Hwf & Hs & Hd). exists (length <$> l). split; [rewrite decide_True by done; eauto|].
    destruct (make_new _ None (Some l) y Hwf Hs Hy) as (Hx & Hv & Hsz & Hl). rewrite Hs in *. done.
  - assert (H' : (y ← make (f (n :: args)) label; Ok (OLar y)) = Ok (OLar z)) by (by destruct label).
    apply bind_ok in H' as (y & Hy & [= <-]). destruct (Hf (n :: args)) as (Hwf & Hs & Hd). exists (n :: args).
    split; [by rewrite decide_False|]. destruct label as [l|].
    + assert (Hsh : new_shape None (Some l) (nd_shape (f (n :: args)))).
      { apply make_some_ok in Hy as (_ & _ & Hy & _). done. }
      destruct (make_new _ None (Some l) y Hwf Hsh Hy) as (Hx & Hv & Hsz & Hl). rewrite Hs in *. done.
    + destruct (make_new _ (Some (n :: args)) None y Hwf (eq_sym (f_equal Some Hs)) Hy) as (Hx & Hv & Hsz & Hl). rewrite Hs in *. done.
Qed.
Lemma filled_num k f dt shape label z :
  k = 0%Z \/ k = 1%Z -> array_source dt f -> larry_fill_new (VInt k) f shape label = Ok z ->
  exists sh, new_shape shape label sh /\ valid z /\ lshape z = sh /\ ldtype z = dt /\ new_labels label sh (llabel z) /\
    forall ls, in_grid (llabel z) ls -> number_at z ls (num_of_Z k).
Proof.
  intros Hk Hf (sh & w & ? & ? & ? & ? & ? & Hw & Hc)%(filled_spec _ _ dt); [|done]. exists sh. split_and!; try done.
  intros ls Hls. exists w. split; [auto|]. destruct Hk as [-> | ->], dt; simpl in Hw; try done; by injection Hw as <-.
Qed.
Lemma ones_spec f dt shape label z :
  array_source dt f -> larry_ones f shape label = Ok z ->
  exists sh, new_shape shape label sh /\ valid z /\ lshape z = sh /\ ldtype z = dt /\ new_labels label sh (llabel z) /\
    forall ls, in_grid (llabel z) ls -> number_at z ls (num_of_Z 1).
Proof. apply filled_num. auto. Qed.
Lemma zeros_spec f dt shape label z :
  array_source dt f -> larry_zeros f shape label = Ok z ->
  exists sh, new_shape shape label sh /\ valid z /\ lshape z = sh /\ ldtype z = dt /\ new_labels label sh (llabel z) /\
    forall ls, in_grid (llabel z) ls -> number_at z ls (num_of_Z 0).
Proof. apply filled_num. auto. Qed.
Lemma ones_zeros_ok f dt shape label sh :
  array_source dt f -> dt <> DStr -> creatable shape label sh ->
  (exists z, larry_ones f shape label = Ok z) /\ exists z, larry_zeros f shape label = Ok z.
Proof.
  intros Hf Hd Hc. split.
  - destruct (store dt (VInt 1)) eqn:E; [by eapply filled_ok|by destruct dt].
  - destruct (store dt (VInt 0)) eqn:E; [by eapply filled_ok|by destruct dt].
Qed.
Lemma create_neither f start step dt :
  lrange None None start step dt = Err ValueError /\ larry_empty f None None = Err ValueError /\
  larry_ones f None None = Err ValueError /\ larry_zeros f None None = Err ValueError.
Proof. done. Qed.
