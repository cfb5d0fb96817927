(** Lemmas connecting label tuples with positions. *)
From Verif Require Export Spec FlabelFacts.

Lemma locate_Some label ls idx :
  Forall NoDup label -> locate label ls = Some idx <-> labels_at label idx ls.
Proof.
  revert ls idx; induction label as [|axis label IH]; intros ls idx Hnd; simpl.
  - destruct ls; split; [intros [= <-]; constructor|by inversion 1|done|by inversion 1].
  - apply Forall_cons in Hnd as [Hax Hnd]. destruct ls as [|l ls]; [split; [done|by inversion 1]|].
    split.
    + intros (i & Hi & (is & His & [= <-])%bind_Some)%bind_Some.
      constructor; [by apply index_of_iff|by apply IH].
    + inversion 1 as [|? i ? ? is ? Hi His]; subst.
      apply index_of_iff in Hi as ->; [|done]. simpl.
      change (Forall3 _ label is ls) with (labels_at label is ls) in His.
      apply IH in His as ->; done.
Qed.
Lemma locate_None_grid label ls : locate label ls = None <-> ~ in_grid label ls.
Proof.
  unfold in_grid. revert ls; induction label as [|axis label IH]; intros [|l ls]; simpl.
  - split; [done|]. intros H. exfalso. apply H. constructor.
  - split; [intros _; by inversion 1|done].
  - split; [intros _; by inversion 1|done].
  - rewrite Forall2_cons. specialize (IH ls).
    destruct (index_of l axis) as [i|] eqn:E; simpl.
    + assert (l ∈ axis) by (apply index_of_is_Some; eauto).
      destruct (locate label ls); simpl; [|naive_solver].
      split; [done|]. intros H'. exfalso. assert (¬ ¬ Forall2 (fun l axis => l ∈ axis) ls label) as Hn.
      { intros H2. by apply IH in H2. }
      apply Hn. intros ?. apply H'. done.
    + apply index_of_None in E. naive_solver.
Qed.

Global Instance in_grid_dec label ls : Decision (in_grid label ls).
Proof. unfold in_grid. apply _. Defined.

Lemma in_grid_labels_at label ls : in_grid label ls <-> exists idx, labels_at label idx ls.
Proof. symmetry. apply labels_at_elem. Qed.

Lemma cell_Some y ls v :
  Forall NoDup (llabel y) ->
  cell y ls = Some v <-> exists idx, labels_at (llabel y) idx ls /\ aget (larr y) idx = Some v.
Proof.
  intros Hnd. unfold cell. rewrite bind_Some. by setoid_rewrite locate_Some.
Qed.
Lemma cell_at y idx ls :
  Forall NoDup (llabel y) -> labels_at (llabel y) idx ls -> cell y ls = aget (larr y) idx.
Proof. intros Hnd Hl. unfold cell. apply locate_Some in Hl as ->; done. Qed.

Lemma valid_nodup y : valid y -> Forall NoDup (llabel y).
Proof. by intros (_ & _ & _ & ?). Qed.
Lemma valid_shape y : valid y -> length <$> llabel y = lshape y.
Proof. by intros (_ & _ & ? & _). Qed.
Lemma valid_ndim y : valid y -> length (llabel y) = lndim y.
Proof. intros H. unfold lndim. by rewrite <-valid_shape, fmap_length. Qed.
Lemma valid_wf y : valid y -> arr_wf (larr y).
Proof. by intros ([? _] & _). Qed.
Lemma valid_typed y : valid y -> Forall (fun v => has_dtype (ldtype y) v = true) (data (larr y)).
Proof. by intros ([_ ?] & _). Qed.
Lemma valid_axis y ax n : valid y -> lshape y !! ax = Some n <-> exists axis, llabel y !! ax = Some axis /\ length axis = n.
Proof. intros H. rewrite <-valid_shape by done. rewrite list_lookup_fmap, fmap_Some. naive_solver. Qed.

Lemma valid_cell_at y idx ls :
  valid y -> labels_at (llabel y) idx ls -> exists v, aget (larr y) idx = Some v /\ cell y ls = Some v.
Proof.
  intros Hv Hl. assert (is_Some (aget (larr y) idx)) as [v Hg].
  { apply get_is_Some; [by apply valid_wf|]. change (shape (larr y)) with (lshape y).
    rewrite <-valid_shape by done. by eapply labels_at_in_range. }
  exists v. split; [done|]. by rewrite (cell_at y idx ls) by (done || by apply valid_nodup).
Qed.
Lemma valid_index_at y idx v :
  valid y -> aget (larr y) idx = Some v -> exists ls, labels_at (llabel y) idx ls /\ cell y ls = Some v.
Proof.
  intros Hv Hg. apply get_in_range in Hg as Hr. change (shape (larr y)) with (lshape y) in Hr.
  rewrite <-valid_shape in Hr by done. destruct (labels_at_exists _ _ Hr) as [ls Hls].
  exists ls. split; [done|]. by rewrite (cell_at y idx ls) by (done || by apply valid_nodup).
Qed.
(** The cells of a larry are exactly the tuples of its label grid. *)
Lemma valid_cell_grid y ls : valid y -> is_Some (cell y ls) <-> in_grid (llabel y) ls.
Proof.
  intros Hv. rewrite in_grid_labels_at. split.
  - intros [v (idx & ? & _)%cell_Some]; [eauto|by apply valid_nodup].
  - intros [idx Hl]. destruct (valid_cell_at y idx ls Hv Hl) as (v & _ & ?). eauto.
Qed.
Lemma valid_cell_typed y ls v : valid y -> cell y ls = Some v -> has_dtype (ldtype y) v = true.
Proof.
  intros Hv (idx & _ & Hg)%cell_Some; [|by apply valid_nodup].
  pose proof (valid_typed y Hv) as Ht. rewrite Forall_forall in Ht. apply Ht.
  apply elem_of_data; [by apply valid_wf|eauto].
Qed.

(** Two well formed larrys with the same labels, dtype and cells are equal. *)
Lemma larry_ext y z :
  valid y -> valid z -> ldtype y = ldtype z -> llabel y = llabel z ->
  (forall ls, in_grid (llabel y) ls -> cell y ls = cell z ls) -> y = z.
Proof.
  intros Hy Hz Hd Hl Hc. destruct y as [[dy ay] ly], z as [[dz az] lz]. simpl in *.
  unfold ldtype in Hd. simpl in Hd. subst. do 2 f_equal.
  apply arr_ext.
  - apply (valid_wf _ Hy).
  - apply (valid_wf _ Hz).
  - pose proof (valid_shape _ Hy). pose proof (valid_shape _ Hz).
    unfold lshape, nd_shape in *. simpl in *. congruence.
  - intros idx Hr. pose proof (valid_shape _ Hy) as Hs. unfold lshape, nd_shape in Hs. simpl in Hs.
    rewrite <-Hs in Hr. destruct (labels_at_exists _ _ Hr) as [ls Hls].
    pose proof (cell_at (Larry (Nda dz ay) lz) idx ls (valid_nodup _ Hy) Hls) as H1.
    pose proof (cell_at (Larry (Nda dz az) lz) idx ls (valid_nodup _ Hz) Hls) as H2.
    unfold larr in *. simpl in *. rewrite <-H1, <-H2. apply Hc, in_grid_labels_at. eauto.
Qed.

(** Typing through [get]. *)
Lemma nda_wf_get x :
  arr_wf (nd_arr x) ->
  (nda_wf x <-> forall idx v, aget (nd_arr x) idx = Some v -> has_dtype (nd_dtype x) v = true).
Proof.
  intros Hwf. unfold nda_wf. rewrite Forall_forall. setoid_rewrite elem_of_data; [|done]. naive_solver.
Qed.
Lemma nda_wf_typed x idx v : nda_wf x -> aget (nd_arr x) idx = Some v -> has_dtype (nd_dtype x) v = true.
Proof. intros [Hwf Ht] Hg. rewrite Forall_forall in Ht. apply Ht, elem_of_data; eauto. Qed.
Lemma gather_nda_wf dt a sh m b :
  nda_wf (Nda dt a) -> gather a sh m = Some b -> nda_wf (Nda dt b).
Proof.
  intros Ha Hb. assert (arr_wf b) by (by apply gather_Some in Hb as (_ & ? & _)).
  apply nda_wf_get; [done|]. intros idx v Hg. simpl in *.
  eapply gather_get in Hg as (_ & idx' & _ & Hg); [|done]. exact (nda_wf_typed (Nda dt a) _ _ Ha Hg).
Qed.

(** ** labels_at and updates of one axis *)
Lemma labels_at_insert {A} (label : list (list A)) idx ls ax axis i l :
  labels_at label idx ls -> axis !! i = Some l ->
  labels_at (<[ax := axis]> label) (<[ax := i]> idx) (<[ax := l]> ls).
Proof.
  intros H Hi. revert ax. induction H as [|a j x label idx ls Ha Hl IH]; intros ax; [constructor|].
  destruct ax as [|ax]; simpl; constructor; auto. apply IH.
Qed.
Lemma labels_at_lookup {A} (label : list (list A)) idx ls ax axis i :
  labels_at label idx ls -> label !! ax = Some axis -> idx !! ax = Some i ->
  exists l, ls !! ax = Some l /\ axis !! i = Some l.
Proof.
  intros H. revert ax. induction H as [|a j x label idx ls Ha Hl IH]; intros ax; [done|].
  destruct ax as [|ax]; simpl; [|apply IH]. intros [= <-] [= <-]. eauto.
Qed.
Lemma labels_at_lookup_is_Some {A} (label : list (list A)) idx ls ax axis :
  labels_at label idx ls -> label !! ax = Some axis ->
  exists i l, idx !! ax = Some i /\ ls !! ax = Some l /\ axis !! i = Some l.
Proof.
  intros H Hax. assert (is_Some (idx !! ax)) as [i Hi].
  { apply lookup_lt_is_Some. rewrite (proj1 (labels_at_lengths _ _ _ H)). by eapply lookup_lt_Some. }
  destruct (labels_at_lookup _ _ _ _ _ _ H Hax Hi) as (l & ? & ?). eauto.
Qed.
Lemma labels_at_lookup_lab {A} (label : list (list A)) idx ls ax l :
  labels_at label idx ls -> ls !! ax = Some l ->
  exists axis i, label !! ax = Some axis /\ idx !! ax = Some i /\ axis !! i = Some l.
Proof.
  intros H Hl. assert (is_Some (label !! ax)) as [axis Hax].
  { apply lookup_lt_is_Some. rewrite <-(proj2 (labels_at_lengths _ _ _ H)). by eapply lookup_lt_Some. }
  destruct (labels_at_lookup_is_Some _ _ _ _ _ H Hax) as (i & l' & ? & Hl' & ?).
  rewrite Hl in Hl'. injection Hl' as <-. eauto.
Qed.
(** Position by position. *)
Lemma labels_at_alt {A} (label : list (list A)) idx ls :
  labels_at label idx ls <-> length idx = length label /\ length ls = length label /\
  forall ax axis i l, label !! ax = Some axis -> idx !! ax = Some i -> ls !! ax = Some l -> axis !! i = Some l.
Proof.
  split.
  - intros H. pose proof (labels_at_lengths _ _ _ H) as [? ?]. split_and!; [done..|].
    intros ax axis i l G1 G2 G3. destruct (labels_at_lookup _ _ _ _ _ _ H G1 G2) as (? & ? & ?). congruence.
  - revert idx ls. induction label as [|a label IH]; intros [|i idx] [|l ls] (H1 & H2 & H3); try done; [constructor|].
    constructor; [by apply (H3 0)|]. apply IH. simpl in *. split_and!; [lia..|]. intros ax. apply (H3 (S ax)).
Qed.
Lemma Forall_nodup_insert (label : list (list lab)) ax axis :
  Forall NoDup label -> NoDup axis -> Forall NoDup (<[ax := axis]> label).
Proof. intros. by apply Forall_insert. Qed.

Lemma fmap_length_insert {A} (label : list (list A)) ax axis :
  length <$> (<[ax := axis]> label) = <[ax := length axis]> (length <$> label).
Proof. apply list_fmap_insert. Qed.

(** ** Selecting positions along one axis

    The heart of take, slicing, sorting, flipping, lagging, ...: choose
    positions of data and the same positions of the label. *)
Lemma select_axis y ax axis ids b lab' :
  valid y -> llabel y !! ax = Some axis ->
  take_pos (larr y) ids ax = Some b -> mapM (axis !!.) ids = Some lab' -> NoDup lab' ->
  let y' := Larry (Nda (ldtype y) b) (<[ax := lab']> (llabel y)) in
  valid y' /\
  forall ls v, cell y' ls = Some v <-> cell y ls = Some v /\ exists l, ls !! ax = Some l /\ l ∈ lab'.
Proof.
  intros Hv Hax Hb Hlab Hnd y'.
  assert (length lab' = length ids) as Hlen by (by apply mapM_length in Hlab).
  assert (Hbwf : nda_wf (Nda (ldtype y) b)).
  { unfold take_pos in Hb. destruct (axlen (larr y) ax); simpl in Hb; [|done].
    case_decide; [|done]. eapply gather_nda_wf; [|done].
    destruct Hv as [Hv _]. unfold ldtype, larr. by destruct (lx y). }
  apply take_pos_Some in Hb as (n & Hn & Hids & Hs & Hbw & Hg).
  assert (Hv' : valid y').
  { repeat split.
    - apply Hbwf.
    - apply Hbwf.
    - simpl. intros H0. apply (f_equal length) in H0. rewrite insert_length in H0.
      destruct Hv as (_ & Hne & _). by destruct (llabel y).
    - simpl. rewrite fmap_length_insert. unfold lshape, nd_shape. simpl. rewrite Hs, Hlen.
      by rewrite (valid_shape y Hv).
    - simpl. apply Forall_nodup_insert; [by apply valid_nodup|done]. }
  split; [done|]. intros ls v.
  assert (Hlt : ax < length (llabel y)) by (by eapply lookup_lt_Some).
  rewrite (cell_Some y'), (cell_Some y) by (by apply valid_nodup). simpl. split.
  - intros (idx & Hl & Hget).
    destruct (labels_at_lookup_is_Some _ _ _ ax lab' Hl) as (k & l & Hk & Hls & Hkl).
    { by apply list_lookup_insert. }
    assert (is_Some (ids !! k)) as [i Hi].
    { apply lookup_lt_is_Some. rewrite <-Hlen. by eapply lookup_lt_Some. }
    assert (Hil : axis !! i = Some l).
    { rewrite <-Hkl. symmetry. by apply (mapM_lookup _ _ _ k i Hlab). }
    split.
    + exists (<[ax := i]> idx). split.
      * rewrite <-(list_insert_id ls ax l) by done.
        rewrite <-(list_insert_id (llabel y) ax axis) by done.
        rewrite <-(list_insert_insert (llabel y) ax axis lab').
        by apply labels_at_insert.
      * rewrite <-(Hg idx k i); [done| |done..]. by eapply get_in_range.
    + exists l. split; [done|]. by eapply elem_of_list_lookup_2.
  - intros [(idx & Hl & Hget) (l & Hls & Hin)].
    apply elem_of_list_lookup in Hin as [k Hk].
    assert (is_Some (ids !! k)) as [i Hi].
    { apply lookup_lt_is_Some. rewrite <-Hlen. by eapply lookup_lt_Some. }
    assert (Hil : axis !! i = Some l).
    { rewrite <-Hk. symmetry. by apply (mapM_lookup _ _ _ k i Hlab). }
    destruct (labels_at_lookup_is_Some _ _ _ ax axis Hl Hax) as (i' & l' & Hi' & Hls' & Hil').
    assert (l' = l) as -> by congruence.
    assert (i' = i) as ->. { eapply NoDup_lookup; [|done..]. exact (Forall_lookup_1 _ _ _ _ (valid_nodup y Hv) Hax). }
    exists (<[ax := k]> idx). split.
    + rewrite <-(list_insert_id ls ax l) by done. by apply labels_at_insert.
    + rewrite (Hg _ k i).
      * by rewrite list_insert_insert, list_insert_id.
      * rewrite Hs. apply in_range_insert; [by eapply get_in_range|].
        rewrite <-Hlen. by eapply lookup_lt_Some.
      * apply list_lookup_insert. apply labels_at_lengths in Hl as [-> _]. done.
      * done.
Qed.

(** Replacing every element. *)
Lemma map_valid y dt f :
  valid y -> (forall v, has_dtype (ldtype y) v = true -> has_dtype dt (f v) = true) ->
  valid (Larry (Nda dt (amap f (larr y))) (llabel y)) /\
  forall ls, cell (Larry (Nda dt (amap f (larr y))) (llabel y)) ls = f <$> cell y ls.
Proof.
  intros Hv Hf. split.
  - destruct Hv as ([Hwf Ht] & Hne & Hs & Hnd). repeat split; simpl; try done.
    + by apply amap_wf.
    + apply Forall_fmap. eapply Forall_impl; [exact Ht|]. auto.
  - intros ls. unfold cell. simpl. unfold larr at 1. simpl.
    destruct (locate (llabel y) ls); simpl; [|done]. apply get_amap.
Qed.
Lemma insert_alt {A} (l : list A) ax x y : l !! ax = Some x -> y = x -> <[ax := y]> l = l.
Proof. intros ? ->. by apply list_insert_id. Qed.

(** ** Rearranging axes

    Data gathered through an index map that agrees with a map of label
    tuples. *)
Lemma regrid_is_Some y (L' : list (list lab)) m (g : list lab -> list lab) :
  valid y ->
  (forall idx' ls', labels_at L' idx' ls' -> exists idx, m idx' = Some idx /\ labels_at (llabel y) idx (g ls')) ->
  is_Some (gather (larr y) (length <$> L') m).
Proof.
  intros Hv Hm. apply gather_is_Some. intros idx' Hr. destruct (labels_at_exists _ _ Hr) as [ls' Hls].
  destruct (Hm _ _ Hls) as (idx & -> & Hl). simpl. destruct (valid_cell_at y _ _ Hv Hl) as (v & -> & _). eauto.
Qed.
Lemma regrid y (L' : list (list lab)) m (g : list lab -> list lab) b :
  valid y -> L' <> [] -> Forall NoDup L' ->
  gather (larr y) (length <$> L') m = Some b ->
  (forall idx' ls', labels_at L' idx' ls' -> exists idx, m idx' = Some idx /\ labels_at (llabel y) idx (g ls')) ->
  let y' := Larry (Nda (ldtype y) b) L' in
  valid y' /\ forall ls', in_grid L' ls' -> cell y' ls' = cell y (g ls').
Proof.
  intros Hv Hne Hnd Hb Hm y'.
  assert (nda_wf (Nda (ldtype y) b)) as Hwf.
  { eapply gather_nda_wf; [|done]. destruct Hv as [Hv _]. unfold ldtype, larr. by destruct (lx y). }
  apply gather_Some in Hb as (Hs & Hbw & Hg). split.
  - split_and!; [done..| |done]. by symmetry.
  - intros ls' [idx' Hls]%in_grid_labels_at. destruct (Hm _ _ Hls) as (idx & Hi & Hl).
    rewrite (cell_at y' idx' ls') by done. rewrite (cell_at y idx) by (done || by apply valid_nodup).
    unfold y', larr at 1. simpl. rewrite Hg; [by rewrite Hi|]. by eapply labels_at_in_range.
Qed.

(** The same elements in the same order under another shape. *)
Lemma reshape_grid y (L' : list (list lab)) (g : list lab -> list lab) :
  valid y -> L' <> [] -> Forall NoDup L' -> size_of (length <$> L') = size_of (lshape y) ->
  (forall idx' ls', labels_at L' idx' ls' -> exists idx, labels_at (llabel y) idx (g ls') /\
     ravel (length <$> L') idx' = ravel (lshape y) idx) ->
  let y' := Larry (Nda (ldtype y) (Arr (length <$> L') (data (larr y)))) L' in
  valid y' /\ forall ls', in_grid L' ls' -> cell y' ls' = cell y (g ls').
Proof.
  intros Hv Hne Hnd Hsz Hm y'. split.
  - split_and!; [|done..]. split; [|by apply valid_typed].
    unfold arr_wf, asize. simpl. rewrite Hsz. by apply valid_wf.
  - intros ls' [idx' Hls]%in_grid_labels_at. destruct (Hm _ _ Hls) as (idx & Hl & Hr).
    rewrite (cell_at y' idx' ls') by done. rewrite (cell_at y idx) by (done || by apply valid_nodup).
    rewrite (get_ravel (larr y)). 2:{ change (shape (larr y)) with (lshape y). rewrite <-valid_shape by done. by eapply labels_at_in_range. }
    rewrite get_ravel by (by eapply labels_at_in_range). unfold y'. simpl. unfold larr at 1. simpl. by rewrite Hr.
Qed.

(** Cells determine each other through [in_grid]. *)
Lemma cell_None_grid y ls : valid y -> cell y ls = None <-> ~ in_grid (llabel y) ls.
Proof. intros Hv. rewrite <-valid_cell_grid by done. rewrite eq_None_not_Some. done. Qed.

(** Another label list for one axis. *)
Lemma relabel_axis y ax (axis lab' : list lab) :
  valid y -> llabel y !! ax = Some axis -> NoDup lab' -> length lab' = length axis ->
  let y' := Larry (lx y) (<[ax := lab']> (llabel y)) in
  valid y' /\
  forall ls i new old, ls !! ax = Some new -> lab' !! i = Some new -> axis !! i = Some old ->
    cell y' ls = cell y (<[ax := old]> ls).
Proof.
  intros Hv Hax Hnd Hlen y'.
  assert (Hlt : ax < length (llabel y)) by (by eapply lookup_lt_Some).
  assert (Hv' : valid y').
  { destruct Hv as (? & Hne & Hs & ?). split_and!; [done| | |].
    - simpl. intros HH. apply (f_equal length) in HH. rewrite insert_length in HH. by destruct (llabel y).
    - simpl. rewrite fmap_length_insert, Hlen. rewrite list_insert_id; [done|].
      by rewrite list_lookup_fmap, Hax.
    - simpl. by apply Forall_nodup_insert. }
  split; [done|]. intros ls i new old Hls Hnew Hold.
  assert (Hgrid : forall idx, labels_at (llabel y') idx ls -> labels_at (llabel y) idx (<[ax := old]> ls)).
  { intros idx Hl. destruct (labels_at_lookup_is_Some _ _ _ ax lab' Hl) as (k & l & Hk & Hls' & Hkl).
    { simpl. by apply list_lookup_insert. }
    assert (k = i) as ->. { eapply NoDup_lookup; [done..|]. congruence. }
    rewrite <-(list_insert_id idx ax i) by done.
    rewrite <-(list_insert_id (llabel y) ax axis) by done.
    rewrite <-(list_insert_insert (llabel y) ax axis lab').
    by apply labels_at_insert. }
  apply option_eq. intros v. rewrite (cell_Some y'), (cell_Some y) by (by apply valid_nodup).
  change (larr y') with (larr y). split; intros (idx & Hl & Hg); exists idx; (split; [|done]).
  - auto.
  - assert (axlt : ax < length (<[ax := old]> ls)).
    { rewrite insert_length. by eapply lookup_lt_Some. }
    assert (Hidx : idx !! ax = Some i).
    { destruct (labels_at_lookup_is_Some _ _ _ ax axis Hl Hax) as (k & l & Hk & Hls' & Hkl).
      rewrite list_lookup_insert in Hls' by (by rewrite insert_length in axlt).
      rewrite Hk. f_equal. eapply NoDup_lookup; [exact (Forall_lookup_1 _ _ _ _ (valid_nodup y Hv) Hax)|done|congruence]. }
    rewrite <-(list_insert_id idx ax i) by done. rewrite <-(list_insert_id ls ax new) by done.
    rewrite <-(list_insert_insert ls ax new old). by apply labels_at_insert.
Qed.

(** Well-formedness of concrete larrys is decided by computation. *)
Global Instance nda_wf_dec x : Decision (nda_wf x).
Proof. unfold nda_wf, arr_wf. apply _. Defined.
Global Instance valid_dec y : Decision (valid y).
Proof. unfold valid. apply _. Defined.
Ltac solve_valid := apply (bool_decide_unpack _); vm_compute; exact I.
