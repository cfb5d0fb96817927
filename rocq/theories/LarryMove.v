(** Proofs about keep_label, pull, lag and the methods that move axes. *)
From Verif Require Export LarryFacts.

(** * keep_label *)
Definition op_holds (op : label_op) (z : lab) : Prop :=
  match op with
  | KEq v => z = v
  | KGt v => lab_lt v z
  | KLt v => lab_lt z v
  | KGe v => lab_le v z
  | KLe v => lab_le z v
  | KNe v => z <> v
  | KIn v => z ∈ v
  | KNotIn v => z ∉ v
  end.
(** Whether Python can evaluate the condition. *)
Definition op_defined (op : label_op) (z : lab) : Prop :=
  match op with
  | KGt v | KGe v => v = z \/ comparable v z = true
  | KLt v | KLe v => z = v \/ comparable z v = true
  | _ => True
  end.
Lemma label_test_ok op z b : label_test op z = Ok b -> (b = true <-> op_holds op z).
Proof.
  destruct op; simpl; try (intros [= <-]; apply bool_decide_eq_true);
    try apply lab_ltR_ok; apply lab_leR_ok.
Qed.
Lemma label_test_defined op z : op_defined op z -> exists b, label_test op z = Ok b.
Proof.
  destruct op; simpl; intros H; eauto; rewrite ?lab_ltR_total, ?lab_leR_total by done; eauto.
Qed.
Lemma sublist_filter {A} (P : A -> Prop) `{forall x, Decision (P x)} (l : list A) : filter P l `sublist_of` l.
Proof.
  induction l as [|x l IH]; [constructor|]. rewrite filter_cons. case_decide; by constructor.
Qed.
Lemma take_pos_ex {A} (a : arr A) ids ax n :
  arr_wf a -> axlen a ax = Some n -> Forall (fun i => i < n) ids -> exists b, take_pos a ids ax = Some b.
Proof. intros. apply take_pos_is_Some; [done|]. eauto. Qed.

Lemma keep_label_spec y op axis y' :
  valid y -> keep_label y op (Some axis) = Ok y' ->
  exists ax l, py_axis y axis = Ok ax /\ llabel y !! ax = Some l /\
  exists kept, kept `sublist_of` l /\ (forall z, z ∈ kept <-> z ∈ l /\ op_holds op z) /\
  (kept <> [] ->
   valid y' /\ ldtype y' = ldtype y /\ llabel y' = <[ax := kept]> (llabel y) /\
   forall ls v, cell y' ls = Some v <-> cell y ls = Some v /\ exists a, ls !! ax = Some a /\ op_holds op a) /\
  (kept = [] -> y' = Larry (Nda DFloat (Arr [0] [])) [[]]).
Proof.
  intros Hv. unfold keep_label. simpl. case_decide; [done|].
  intros (ax & Hp & (l & Hl%axis_label_ok & (idx & Hidx & H')%bind_ok)%bind_ok)%bind_ok.
  exists ax, l. split_and!; [done..|].
  assert (Hdef : forall z, z ∈ l -> exists b, label_test op z = Ok b).
  { apply positions_from_ok in Hidx as (_ & _ & Hall & _). by apply Forall_forall. }
  assert (Hhold : forall z, z ∈ l -> label_test op z = Ok true <-> op_holds op z).
  { intros z Hz. destruct (Hdef z Hz) as [b Hb]. rewrite <-(label_test_ok _ _ _ Hb), Hb. naive_solver. }
  apply positions_ok in Hidx as (Hs & Hin & Hm).
  set (kept := filter (fun x => label_test op x = Ok true) l) in *.
  exists kept.
  assert (Hkept : forall z, z ∈ kept <-> z ∈ l /\ op_holds op z).
  { intros z. unfold kept. rewrite elem_of_list_filter. naive_solver. }
  assert (length kept = length idx) as Hlen by (by apply mapM_length in Hm).
  split_and!; [apply sublist_filter|done| |].
  - intros Hne. destruct idx as [|i0 idx]; [by destruct kept|].
    rewrite Hm in H'. simpl of_opt in H'. apply bind_ok in H' as (k & [= <-] & (b & Hb%of_opt_ok & [= <-])%bind_ok).
    destruct (select_axis y ax l (i0 :: idx) b kept) as [Hv' Hc]; try done.
    { apply NoDup_filter. exact (Forall_lookup_1 _ _ _ _ (valid_nodup y Hv) Hl). }
    split_and!; try done. intros ls v. rewrite Hc. split.
    + intros [? (a & Ha & Hk%Hkept)]. naive_solver.
    + intros [Hcell (a & Ha & Ho)]. split; [done|]. exists a. split; [done|]. apply Hkept. split; [|done].
      assert (in_grid (llabel y) ls) as Hg by (by apply valid_cell_grid; eauto).
      exact (Forall2_lookup_lr _ _ _ _ _ _ Hg Ha Hl).
  - intros He. rewrite He in Hlen. destruct idx; [|done]. by injection H' as <-.
Qed.
Lemma keep_label_ok y op axis ax l :
  valid y -> py_axis y axis = Ok ax -> llabel y !! ax = Some l ->
  (forall z, z ∈ l -> op_defined op z) -> exists y', keep_label y op (Some axis) = Ok y'.
Proof.
  intros Hv Hp Hl Hd. unfold keep_label. simpl. pose proof (valid_ndim y Hv).
  case_decide; [apply py_axis_ok in Hp; lia|]. rewrite Hp. simpl.
  apply axis_label_ok in Hl as Hl'. rewrite Hl'. simpl.
  destruct (positions_total (label_test op) l) as [idx Hidx].
  { intros z Hz. by apply label_test_defined, Hd. }
  rewrite Hidx. apply positions_ok in Hidx as (_ & Hin & Hm). simpl.
  destruct idx as [|i idx]; [eauto|]. rewrite Hm. simpl of_opt. cbn [mbind res_bind].
  destruct (take_pos_ex (larr y) (i :: idx) ax (length l)) as [b Hb].
  - by apply valid_wf.
  - by apply valid_axis_len.
  - apply Forall_forall. intros j (x & Hx & _)%Hin. by eapply lookup_lt_Some.
  - rewrite Hb. simpl. eauto.
Qed.

(** * pull *)
Lemma labels_at_insert_at {A} (label : list (list A)) idx ls ax axis i l :
  labels_at label idx ls -> axis !! i = Some l ->
  labels_at (insert_at ax axis label) (insert_at ax i idx) (insert_at ax l ls).
Proof.
  intros H Hi. revert ax. induction H as [|a j x label idx ls Ha Hl IH]; intros ax.
  - destruct ax; simpl; (constructor; [done|constructor]).
  - destruct ax as [|ax]; simpl.
    + constructor; [done|]. by constructor.
    + constructor; [done|]. apply IH.
Qed.
Lemma labels_at_remove_at {A} (label : list (list A)) idx ls ax :
  labels_at label idx ls -> labels_at (remove_at ax label) (remove_at ax idx) (remove_at ax ls).
Proof.
  intros H. revert ax. induction H as [|a j x label idx ls Ha Hl IH]; intros ax; [constructor|].
  destruct ax as [|ax]; simpl; [done|]. constructor; [done|]. apply IH.
Qed.
Lemma remove_at_fmap {A B} (f : A -> B) ax l : f <$> remove_at ax l = remove_at ax (f <$> l).
Proof. unfold remove_at. by rewrite list_fmap_delete. Qed.

Lemma in_grid_length label ls : in_grid label ls -> length ls = length label.
Proof. apply Forall2_length. Qed.

(** The slice at one label of an axis. *)
Lemma pick_grid y ax axis i name b :
  valid y -> 1 < lndim y -> llabel y !! ax = Some axis -> axis !! i = Some name ->
  pick_axis (larr y) i ax = Some b ->
  let z := Larry (Nda (ldtype y) b) (remove_at ax (llabel y)) in
  valid z /\ forall ls, in_grid (remove_at ax (llabel y)) ls -> cell z ls = cell y (insert_at ax name ls).
Proof.
  intros Hv Hnd Hax Hi Hb. unfold pick_axis in Hb.
  apply bind_Some in Hb as (n & Hn & Hb).
  pose proof (lookup_lt_Some _ _ _ Hax) as Hlt. pose proof (valid_ndim y Hv) as Hl.
  change (shape (larr y)) with (lshape y) in Hb. rewrite <-(valid_shape y Hv), <-remove_at_fmap in Hb.
  eapply (regrid y _ _ (insert_at ax name)); [done| | |exact Hb|].
  - intros H0. apply (f_equal length) in H0. rewrite remove_at_length in H0 by lia. simpl in H0. lia.
  - unfold remove_at. apply Forall_delete. by apply valid_nodup.
  - intros idx' ls' Hls. eexists. split; [done|].
    rewrite <-(insert_remove_at ax axis (llabel y)) by done. by apply labels_at_insert_at.
Qed.
Lemma pick_axis_ex y ax axis i name :
  valid y -> llabel y !! ax = Some axis -> axis !! i = Some name ->
  exists b, pick_axis (larr y) i ax = Some b /\ shape b = remove_at ax (lshape y).
Proof.
  intros Hv Hax Hi. unfold pick_axis. rewrite (valid_axis_len y ax axis) by done. simpl.
  change (shape (larr y)) with (lshape y).
  destruct (regrid_is_Some y (remove_at ax (llabel y)) (fun idx => Some (insert_at ax i idx)) (insert_at ax name)) as [b Hb]; [done| |].
  - intros idx' ls' Hls. eexists. split; [done|].
    rewrite <-(insert_remove_at ax axis (llabel y)) by done. by apply labels_at_insert_at.
  - rewrite remove_at_fmap, (valid_shape y Hv) in Hb. exists b. split; [done|].
    by apply gather_Some in Hb as (? & _).
Qed.

Lemma pull_spec y name axis o :
  valid y -> 1 < lndim y -> pull y name (Some axis) = Ok o ->
  exists ax l, py_axis y axis = Ok ax /\ llabel y !! ax = Some l /\ name ∈ l /\
  (length <$> remove_at ax (llabel y) <> [1] ->
   exists z, o = OLar z /\ valid z /\ ldtype z = ldtype y /\ llabel z = remove_at ax (llabel y) /\
   forall ls, in_grid (llabel z) ls -> cell z ls = cell y (insert_at ax name ls)).
Proof.
  intros Hv Hnd. unfold pull. simpl.
  intros (ax & Hp & (idx & Hidx & H)%bind_ok)%bind_ok.
  apply labelindex_exact in Hidx as (ax' & l & Hp' & Hl & Hi); [|done].
  rewrite Hp in Hp'. injection Hp' as <-.
  exists ax, l. split_and!; [done..|by eapply elem_of_list_lookup_2|]. intros Hne.
  rewrite decide_False in H by lia. apply bind_ok in H as (b & Hb%of_opt_ok & H).
  destruct (pick_grid y ax l idx name b) as [Hvz Hc]; [done..|].
  case_decide as Hs.
  { destruct Hne. apply valid_shape in Hvz. simpl in Hvz. rewrite Hvz. done. }
  apply bind_ok in H as (z & Hz & [= <-]). apply make_some_ok in Hz as [-> _].
  eexists. split_and!; [done..|]. exact Hc.
Qed.
Lemma pull_ok y name axis ax l :
  valid y -> py_axis y axis = Ok ax -> llabel y !! ax = Some l -> name ∈ l ->
  exists o, pull y name (Some axis) = Ok o.
Proof.
  intros Hv Hp Hl [i Hi]%elem_of_list_lookup. unfold pull. simpl. rewrite Hp. simpl.
  assert (labelindex y name (Some axis) true = Ok i) as ->.
  { apply labelindex_exact; [done|]. eauto. }
  simpl. destruct (decide (lndim y = 1)) as [H1|H1].
  - destruct (take_pos_ex (larr y) [i] ax (length l)) as [b Hb].
    + by apply valid_wf.
    + by apply valid_axis_len.
    + constructor; [by eapply lookup_lt_Some|constructor].
    + rewrite Hb. simpl. apply take_pos_Some in Hb as (n & Hn & _ & Hs & Hw & _).
      pose proof (valid_ndim y Hv) as Hlen. pose proof (lookup_lt_Some _ _ _ Hl) as Hlt.
      assert (ax = 0) as -> by lia.
      assert (shape b = [1]) as Hs'.
      { rewrite Hs. unfold lndim, lshape, nd_shape in H1. change (nd_arr (lx y)) with (larr y) in H1.
        destruct (shape (larr y)) as [|m [|]]; done. }
      rewrite decide_True by done.
      destruct (get_is_Some b [0] Hw) as [_ Hg]. destruct Hg as [v Hg].
      { rewrite Hs'. constructor; [lia|constructor]. }
      rewrite Hg. simpl. eauto.
  - destruct (pick_axis_ex y ax l i name) as (b & Hb & Hs); [done..|]. rewrite Hb. simpl.
    assert (1 < lndim y).
    { pose proof (valid_ndim y Hv). pose proof (lookup_lt_Some _ _ _ Hl). lia. }
    destruct (pick_grid y ax l i name b) as [Hvz Hc]; [done..|].
    case_decide as Hs1.
    + destruct Hvz as ([Hw _] & _). simpl in Hw. destruct (get_is_Some b [0] Hw) as [_ Hg]. destruct Hg as [v Hg].
      { rewrite Hs1. constructor; [lia|constructor]. }
      rewrite Hg. simpl. eauto.
    + assert (make (Nda (ldtype y) b) (Some (remove_at ax (llabel y))) =
        Ok (Larry (Nda (ldtype y) b) (remove_at ax (llabel y)))) as ->; [|eauto].
      apply make_some_ok. destruct Hvz as (_ & ? & ? & ?). done.
Qed.
Lemma pull_1d y name axis o :
  valid y -> lndim y = 1 -> pull y name (Some axis) = Ok o ->
  exists v, o = OVal v /\ cell y [name] = Some v.
Proof.
  intros Hv Hnd. unfold pull. simpl.
  intros (ax & Hp & (idx & Hidx & H)%bind_ok)%bind_ok.
  apply labelindex_exact in Hidx as (ax' & l & Hp' & Hl & Hi); [|done].
  rewrite Hp in Hp'. injection Hp' as <-.
  rewrite decide_True in H by done. apply bind_ok in H as (b & Hb%of_opt_ok & H).
  apply take_pos_Some in Hb as (n & Hn & Hlt & Hs & Hw & Hg).
  pose proof (valid_ndim y Hv) as Hlen. pose proof (lookup_lt_Some _ _ _ Hl) as Hlt'.
  assert (ax = 0) as -> by lia. destruct (llabel y) as [|l' [|]] eqn:El; try (simpl in Hlen; lia).
  injection Hl as ->.
  assert (shape b = [1]) as Hs'.
  { rewrite Hs. change (shape (larr y)) with (lshape y). by rewrite <-(valid_shape y Hv), El. }
  rewrite decide_True in H by done. apply bind_ok in H as (v & Hv'%of_opt_ok & [= <-]).
  exists v. split; [done|]. rewrite (cell_at y [idx]).
  - rewrite <-Hv'. symmetry. apply (Hg [0] 0 idx); [|done..]. rewrite Hs'. constructor; [lia|constructor].
  - rewrite El. rewrite <-El. by apply valid_nodup.
  - rewrite El. constructor; [done|constructor].
Qed.
Lemma pull_unknown y name axis ax l :
  valid y -> py_axis y axis = Ok ax -> llabel y !! ax = Some l -> name ∉ l ->
  pull y name (Some axis) = Err IndexError.
Proof.
  intros Hv Hp Hl Hn. unfold pull. simpl. rewrite Hp. simpl.
  destruct (labelindex y name (Some axis) true) as [i|e] eqn:E.
  - apply labelindex_exact in E as (ax' & l' & Hp' & Hl' & Hi); [|done]. rewrite Hp in Hp'. injection Hp' as <-.
    simplify_eq. destruct Hn. by eapply elem_of_list_lookup_2.
  - by apply labelindex_exact_err in E as ->.
Qed.

(** * Slices that the code uses *)
Lemma seq_fmap_shift k n : (fun i => i + k) <$> seq 0 n = seq k n.
Proof.
  apply list_eq. intros i. rewrite list_lookup_fmap. destruct (decide (i < n)).
  - rewrite !lookup_seq_lt by done. simpl. f_equal. lia.
  - by rewrite !lookup_seq_ge by lia.
Qed.
Lemma slice_positions_drop k n :
  slice_positions (Slice (Some (Z.of_nat k)) None None) n = Ok (seq k (n - k)).
Proof.
  unfold slice_positions. simpl. f_equal.
  unfold slice_clamp. destruct (Z.ltb_spec (Z.of_nat k) 0); [lia|].
  destruct (Z.ltb_spec (Z.of_nat k) 0); [lia|].
  destruct (Z.ltb_spec (Z.of_nat n) (Z.of_nat k)).
  - destruct (Z.ltb_spec (Z.of_nat n) (Z.of_nat n)); [lia|]. simpl. by replace (n - k) with 0 by lia.
  - destruct (Z.ltb_spec (Z.of_nat k) (Z.of_nat n)).
    + rewrite Z.div_1_r. replace (Z.to_nat _) with (n - k) by lia. rewrite <-(seq_fmap_shift k).
      apply list_fmap_ext. intros _ i _. lia.
    + simpl. by replace (n - k) with 0 by lia.
Qed.
Lemma slice_positions_neg o k n :
  0 < k -> o = None \/ o = Some 0%Z ->
  slice_positions (Slice o (Some (- Z.of_nat k)%Z) None) n = Ok (seq 0 (n - k)).
Proof.
  intros Hk Ho. unfold slice_positions. simpl. f_equal.
  assert (match o with Some z => slice_clamp 0 (Z.of_nat n) (Z.of_nat n) z | None => 0%Z end = 0%Z) as ->.
  { destruct Ho as [-> | ->]; [done|]. unfold slice_clamp. simpl. destruct (Z.ltb_spec (Z.of_nat n) 0); lia. }
  unfold slice_clamp. destruct (Z.ltb_spec (- Z.of_nat k) 0); [|lia].
  destruct (Z.ltb_spec (- Z.of_nat k + Z.of_nat n) 0).
  - simpl. by replace (n - k) with 0 by lia.
  - destruct (Z.ltb_spec (Z.of_nat n) (- Z.of_nat k + Z.of_nat n)); [lia|].
    destruct (Z.ltb_spec 0 (- Z.of_nat k + Z.of_nat n)).
    + rewrite Z.div_1_r. replace (Z.to_nat _) with (n - k) by lia.
      rewrite <-(list_fmap_id (seq 0 (n - k))) at 2. apply list_fmap_ext. intros _ i _. simpl. lia.
    + simpl. by replace (n - k) with 0 by lia.
Qed.
Lemma reverse_seq_lookup n i : i < n -> reverse (seq 0 n) !! i = Some (n - S i).
Proof.
  intros. rewrite reverse_lookup; rewrite seq_length; [|lia]. rewrite lookup_seq_lt by lia. f_equal.
Qed.
Lemma slice_positions_flip n : slice_positions flip_slice n = Ok (reverse (seq 0 n)).
Proof.
  unfold slice_positions. simpl. f_equal.
  replace (Z.to_nat _) with n.
  2:{ destruct (Z.ltb_spec (-1) (Z.of_nat n - 1)); [|lia]. rewrite Z.div_1_r. lia. }
  apply list_eq. intros i. rewrite list_lookup_fmap. destruct (decide (i < n)).
  - rewrite lookup_seq_lt, reverse_seq_lookup by done. simpl. f_equal. lia.
  - rewrite lookup_seq_ge by lia. simpl. symmetry. apply lookup_ge_None.
    rewrite reverse_length, seq_length. lia.
Qed.
Lemma mapM_seq_drop {A} (l : list A) k : mapM (l !!.) (seq k (length l - k)) = Some (drop k l).
Proof.
  apply mapM_Some_lookup. rewrite drop_length, seq_length. split; [done|].
  intros i x [-> Hx]%lookup_seq. by rewrite lookup_drop.
Qed.
Lemma mapM_seq_take {A} (l : list A) k : k <= length l -> mapM (l !!.) (seq 0 k) = Some (take k l).
Proof.
  intros Hk. apply mapM_Some_lookup. rewrite take_length, seq_length. split; [lia|].
  intros i x [-> Hx]%lookup_seq. simpl. by rewrite lookup_take by lia.
Qed.
Lemma mapM_reverse_seq {A} (l : list A) : mapM (l !!.) (reverse (seq 0 (length l))) = Some (reverse l).
Proof.
  apply mapM_Some_lookup. rewrite !reverse_length, seq_length. split; [done|].
  intros i x Hx. assert (i < length l).
  { apply lookup_lt_Some in Hx. by rewrite reverse_length, seq_length in Hx. }
  rewrite reverse_seq_lookup in Hx by done. injection Hx as <-.
  by rewrite reverse_lookup.
Qed.

Lemma slice_axis_ok {A} (a : arr A) s ax n ps b :
  axlen a ax = Some n -> slice_positions s n = Ok ps ->
  slice_axis a s ax = Ok b <-> take_pos a ps ax = Some b.
Proof. intros Hn Hps. unfold slice_axis. rewrite Hn. simpl. rewrite Hps. simpl. apply of_opt_ok. Qed.
Lemma slice_axis_ex y s ax l ps :
  valid y -> llabel y !! ax = Some l -> slice_positions s (length l) = Ok ps ->
  exists b, slice_axis (larr y) s ax = Ok b /\ take_pos (larr y) ps ax = Some b.
Proof.
  intros Hv Hl Hps. destruct (take_pos_ex (larr y) ps ax (length l)) as [b Hb].
  - by apply valid_wf.
  - by apply valid_axis_len.
  - by apply slice_positions_ok in Hps as [? _].
  - exists b. split; [|done]. eapply slice_axis_ok; [by apply valid_axis_len|done..].
Qed.
Lemma nodup_label y ax l : valid y -> llabel y !! ax = Some l -> NoDup l.
Proof. intros Hv Hl. exact (Forall_lookup_1 _ _ _ _ (valid_nodup y Hv) Hl). Qed.

(** Selecting labels and data with the same slice. *)
Lemma slice_select y ax l s ps l' :
  valid y -> llabel y !! ax = Some l -> slice_positions s (length l) = Ok ps ->
  mapM (l !!.) ps = Some l' ->
  exists b, slice_axis (larr y) s ax = Ok b /\
  let y' := Larry (Nda (ldtype y) b) (<[ax := l']> (llabel y)) in
  valid y' /\ forall ls v, cell y' ls = Some v <-> cell y ls = Some v /\ exists a, ls !! ax = Some a /\ a ∈ l'.
Proof.
  intros Hv Hl Hps Hl'. destruct (slice_axis_ex y s ax l ps) as (b & Hb & Ht); [done..|].
  exists b. split; [done|]. apply (select_axis y ax l ps); try done.
  apply (mapM_index_inj l ps l'); [by eapply nodup_label|done|]. by apply slice_positions_ok in Hps as [_ ?].
Qed.

(** * flipaxis *)
Lemma flip_one_spec y axis ax l :
  valid y -> py_axis y axis = Ok ax -> llabel y !! ax = Some l ->
  exists y', flip_one y axis = Ok y' /\ valid y' /\ ldtype y' = ldtype y /\
  llabel y' = <[ax := reverse l]> (llabel y) /\ forall ls, cell y' ls = cell y ls.
Proof.
  intros Hv Hp Hl. unfold flip_one. rewrite Hp. simpl.
  apply axis_label_ok in Hl as Hl'. rewrite Hl'. simpl.
  assert (py_slice flip_slice l = Ok (reverse l)) as ->.
  { apply py_slice_Ok. eexists. split; [apply slice_positions_flip|apply mapM_reverse_seq]. }
  simpl.
  destruct (slice_select y ax l flip_slice _ (reverse l) Hv Hl (slice_positions_flip _) (mapM_reverse_seq _))
    as (b & Hb & Hv' & Hc).
  rewrite Hb. simpl. eexists. split_and!; [done..|]. intros ls. apply option_eq. intros v.
  rewrite Hc. split; [by intros [? _]|]. intros Hcell. split; [done|].
  assert (in_grid (llabel y) ls) as Hg by (by apply valid_cell_grid; eauto).
  destruct (Forall2_lookup_r _ _ _ _ _ Hg Hl) as (a & Ha & Hin). exists a. split; [done|].
  by rewrite elem_of_reverse.
Qed.
Lemma py_axis_label y y' axis : length (llabel y') = length (llabel y) -> py_axis y' axis = py_axis y axis.
Proof. unfold py_axis. by intros ->. Qed.
Lemma flipaxis_some y axis ax l :
  valid y -> py_axis y axis = Ok ax -> llabel y !! ax = Some l ->
  exists y', flipaxis y (Some axis) = Ok y' /\ valid y' /\ ldtype y' = ldtype y /\
  llabel y' = <[ax := reverse l]> (llabel y) /\ forall ls, cell y' ls = cell y ls.
Proof.
  intros. destruct (flip_one_spec y axis ax l) as (y' & Hy & H'); [done..|]. exists y'.
  unfold flipaxis. simpl. rewrite Hy. done.
Qed.
Lemma flipaxis_some_invol y axis y' :
  valid y -> flipaxis y (Some axis) = Ok y' -> flipaxis y' (Some axis) = Ok y.
Proof.
  intros Hv H. assert (exists ax, py_axis y axis = Ok ax) as [ax Hp].
  { unfold flipaxis, flip_one in H. simpl in H. destruct (py_axis y axis) as [ax|]; [eauto|done]. }
  destruct (axis_label_exists _ _ _ Hp) as (l & _ & Hl).
  destruct (flipaxis_some y axis ax l) as (y1 & Hy & Hv1 & Hd1 & Hl1 & Hc1); [done..|].
  rewrite Hy in H. injection H as ->. pose proof (lookup_lt_Some _ _ _ Hl) as Hlt.
  destruct (flipaxis_some y' axis ax (reverse l)) as (y2 & Hy2 & Hv2 & Hd2 & Hl2 & Hc2); [done|..].
  - rewrite (py_axis_label y); [done|]. by rewrite Hl1, insert_length.
  - rewrite Hl1. by apply list_lookup_insert.
  - rewrite Hy2. f_equal. apply larry_ext; [done..|congruence| |].
    + rewrite Hl2, Hl1, reverse_involutive, list_insert_insert. by apply list_insert_id.
    + intros ls _. by rewrite Hc2, Hc1.
Qed.

Lemma flip_fold y n :
  valid y -> n <= lndim y ->
  exists y', foldM flip_one y (Z.of_nat <$> seq 0 n) = Ok y' /\ valid y' /\ ldtype y' = ldtype y /\
  llabel y' = (reverse <$> take n (llabel y)) ++ drop n (llabel y) /\ forall ls, cell y' ls = cell y ls.
Proof.
  intros Hv. induction n as [|n IH]; intros Hn.
  { exists y. rewrite drop_0. done. }
  destruct IH as (y1 & H1 & Hv1 & Hd1 & Hl1 & Hc1); [lia|].
  rewrite seq_S, fmap_app, foldM_app, H1. cbn [mbind res_bind].
  pose proof (valid_ndim y Hv) as Hlen.
  assert (is_Some (llabel y !! n)) as [l Hl] by (apply lookup_lt_is_Some; lia).
  assert (length (reverse <$> take n (llabel y)) = n) as Hlt by (rewrite fmap_length, take_length; lia).
  assert (llabel y1 !! n = Some l) as Hl1n.
  { rewrite Hl1, lookup_app_r by lia. rewrite Hlt, lookup_drop. by replace (n + (n - n)) with n by lia. }
  destruct (flip_one_spec y1 (Z.of_nat n) n l) as (y2 & Hy2 & Hv2 & Hd2 & Hl2 & Hc2); [done| |done|].
  { apply py_axis_nat. by eapply lookup_lt_Some. }
  exists y2. simpl. rewrite Hy2. split_and!; [done..|congruence| |].
  - rewrite Hl2, Hl1. rewrite (drop_S _ l) by done.
    rewrite insert_app_r_alt by lia. rewrite Hlt, Nat.sub_diag. simpl.
    rewrite (take_S_r _ _ l) by done. rewrite fmap_app. simpl. by rewrite <-app_assoc.
  - intros ls. by rewrite Hc2.
Qed.
Lemma flipaxis_none y :
  valid y ->
  exists y', flipaxis y None = Ok y' /\ valid y' /\ ldtype y' = ldtype y /\
  llabel y' = reverse <$> llabel y /\ forall ls, cell y' ls = cell y ls.
Proof.
  intros Hv. destruct (flip_fold y (lndim y) Hv) as (y' & H); [done|].
  exists y'. unfold flipaxis, axes_of. pose proof (valid_ndim y Hv).
  by rewrite take_ge, drop_ge, app_nil_r in H by lia.
Qed.
Lemma flipaxis_none_invol y y' : valid y -> flipaxis y None = Ok y' -> flipaxis y' None = Ok y.
Proof.
  intros Hv H. destruct (flipaxis_none y Hv) as (y1 & Hy & Hv1 & Hd1 & Hl1 & Hc1).
  rewrite Hy in H. injection H as ->.
  destruct (flipaxis_none y' Hv1) as (y2 & Hy2 & Hv2 & Hd2 & Hl2 & Hc2).
  rewrite Hy2. f_equal. apply larry_ext; [done..|congruence| |].
  - rewrite Hl2, Hl1, <-list_fmap_compose. rewrite <-(list_fmap_id (llabel y)) at 2.
    apply list_fmap_ext. intros _ l _. simpl. apply reverse_involutive.
  - intros ls _. by rewrite Hc2, Hc1.
Qed.

(** * lag *)
Lemma lag_zero y axis : lag y 0 (Some axis) = Ok y.
Proof. done. Qed.
Lemma lag_none y n : lag y n None = Err IndexError.
Proof. done. Qed.

(** Labels from one selection, data from another. *)
Lemma lag_general y ax l s1 ps l1 l2 :
  valid y -> llabel y !! ax = Some l -> slice_positions s1 (length l) = Ok ps ->
  mapM (l !!.) ps = Some l1 -> NoDup l2 -> length l2 = length l1 ->
  exists b, slice_axis (larr y) s1 ax = Ok b /\
  let y' := Larry (Nda (ldtype y) b) (<[ax := l2]> (llabel y)) in
  valid y' /\
  forall ls i new old, ls !! ax = Some new -> l2 !! i = Some new -> l1 !! i = Some old ->
    cell y' ls = cell y (<[ax := old]> ls).
Proof.
  intros Hv Hl Hps Hl1 Hnd Hlen.
  destruct (slice_select y ax l s1 ps l1) as (b & Hb & Hv' & Hc); [done..|].
  exists b. split; [done|]. set (y1 := Larry _ _) in Hv', Hc.
  pose proof (lookup_lt_Some _ _ _ Hl) as Hlt.
  destruct (relabel_axis y1 ax l1 l2) as [Hv2 Hc2]; [done| |done..|].
  { simpl. by apply list_lookup_insert. }
  simpl in Hv2, Hc2. rewrite list_insert_insert in Hv2, Hc2. split; [done|].
  intros ls i new old Hls Hnew Hold. rewrite (Hc2 ls i new old) by done.
  apply option_eq. intros v. rewrite Hc. split; [by intros [? _]|]. intros Hcell. split; [done|].
  exists old. split; [|by eapply elem_of_list_lookup_2]. apply list_lookup_insert. by eapply lookup_lt_Some.
Qed.
Lemma lag_pos y k axis ax l :
  valid y -> 0 < k -> py_axis y axis = Ok ax -> llabel y !! ax = Some l ->
  exists y', lag y (Z.of_nat k) (Some axis) = Ok y' /\ valid y' /\ ldtype y' = ldtype y /\
  llabel y' = <[ax := drop k l]> (llabel y) /\
  forall ls i new old, ls !! ax = Some new -> l !! (i + k) = Some new -> l !! i = Some old ->
    cell y' ls = cell y (<[ax := old]> ls).
Proof.
  intros Hv Hk Hp Hl. unfold lag. simpl. rewrite decide_True by lia. rewrite Hp. simpl.
  apply axis_label_ok in Hl as Hl'. rewrite Hl'. simpl.
  assert (py_slice (Slice (Some (Z.of_nat k)) None None) l = Ok (drop k l)) as ->.
  { apply py_slice_Ok. eexists. split; [apply slice_positions_drop|apply mapM_seq_drop]. }
  simpl. assert (NoDup l) as Hnd by (by eapply nodup_label).
  destruct (lag_general y ax l _ _ (take (length l - k) l) (drop k l) Hv Hl
    (slice_positions_neg (Some 0%Z) k (length l) Hk (or_intror eq_refl))) as (b & Hb & Hv' & Hc).
  - apply mapM_seq_take. lia.
  - rewrite <-(take_drop k l) in Hnd. by apply NoDup_app in Hnd as (_ & _ & ?).
  - rewrite take_length, drop_length. lia.
  - rewrite Hb. simpl. eexists. split_and!; [done..|].
    intros ls i new old Hls Hnew Hold. apply (Hc ls i new old); [done| |].
    + rewrite lookup_drop. by rewrite Nat.add_comm.
    + rewrite lookup_take; [done|]. apply lookup_lt_Some in Hnew. lia.
Qed.
Lemma lag_neg y k axis ax l :
  valid y -> 0 < k -> py_axis y axis = Ok ax -> llabel y !! ax = Some l ->
  exists y', lag y (- Z.of_nat k) (Some axis) = Ok y' /\ valid y' /\ ldtype y' = ldtype y /\
  llabel y' = <[ax := take (length l - k) l]> (llabel y) /\
  forall ls i new old, ls !! ax = Some new -> l !! i = Some new -> l !! (i + k) = Some old ->
    cell y' ls = cell y (<[ax := old]> ls).
Proof.
  intros Hv Hk Hp Hl. unfold lag. simpl. rewrite decide_False by lia. rewrite decide_True by lia. rewrite Hp. simpl.
  apply axis_label_ok in Hl as Hl'. rewrite Hl'. simpl.
  assert (py_slice (Slice None (Some (- Z.of_nat k)%Z) None) l = Ok (take (length l - k) l)) as ->.
  { apply py_slice_Ok. eexists. split; [apply slice_positions_neg; auto|apply mapM_seq_take; lia]. }
  simpl. assert (NoDup l) as Hnd by (by eapply nodup_label). rewrite Z.opp_involutive.
  destruct (lag_general y ax l _ _ (drop k l) (take (length l - k) l) Hv Hl
    (slice_positions_drop k (length l))) as (b & Hb & Hv' & Hc).
  - apply mapM_seq_drop.
  - rewrite <-(take_drop (length l - k) l) in Hnd. by apply NoDup_app in Hnd as (? & _).
  - rewrite take_length, drop_length. lia.
  - rewrite Hb. simpl. eexists. split_and!; [done..|].
    intros ls i new old Hls Hnew Hold. apply (Hc ls i new old); [done| |].
    + rewrite lookup_take; [done|]. apply lookup_lt_Some in Hold. lia.
    + rewrite lookup_drop. by rewrite Nat.add_comm.
Qed.

(** * Transpose and swapaxes *)
Lemma in_grid_reverse label ls : in_grid (reverse label) ls -> in_grid label (reverse ls).
Proof.
  rewrite !in_grid_labels_at. intros [idx H]. exists (reverse idx).
  rewrite <-(reverse_involutive label). by apply labels_at_reverse.
Qed.
Lemma larry_T_spec y :
  valid y ->
  exists y', larry_T y = Ok y' /\ valid y' /\ ldtype y' = ldtype y /\ llabel y' = reverse (llabel y) /\
  forall ls, cell y' ls = cell y (reverse ls).
Proof.
  intros Hv. unfold larry_T, transpose.
  assert (reverse (shape (larr y)) = length <$> reverse (llabel y)) as ->.
  { change (shape (larr y)) with (lshape y). by rewrite fmap_reverse, valid_shape. }
  assert (Hm : forall idx' ls', labels_at (reverse (llabel y)) idx' ls' ->
    exists idx, Some (reverse idx') = Some idx /\ labels_at (llabel y) idx (reverse ls')).
  { intros idx' ls' H. eexists. split; [done|].
    rewrite <-(reverse_involutive (llabel y)). by apply labels_at_reverse. }
  destruct (regrid_is_Some y (reverse (llabel y)) (fun idx => Some (reverse idx)) reverse Hv Hm) as [b Hb].
  assert (Forall NoDup (reverse (llabel y))) as Hnd by (apply Forall_reverse, valid_nodup, Hv).
  assert (reverse (llabel y) <> []) as Hne.
  { destruct Hv as (_ & Hne & _). intros H. apply Hne. apply (f_equal reverse) in H.
    by rewrite reverse_involutive in H. }
  rewrite Hb. simpl. destruct (regrid y (reverse (llabel y)) _ reverse b Hv Hne Hnd Hb Hm) as [Hv' Hc].
  eexists. split_and!; [done..|]. intros ls. destruct (decide (in_grid (reverse (llabel y)) ls)) as [Hg|Hg].
  - by apply Hc.
  - transitivity (None : option val); [|symmetry]; apply cell_None_grid; try done.
    intros Hg'. apply Hg. rewrite <-(reverse_involutive ls). apply in_grid_reverse.
    by rewrite reverse_involutive.
Qed.
Lemma larry_T_invol y y' : valid y -> larry_T y = Ok y' -> larry_T y' = Ok y.
Proof.
  intros Hv H. destruct (larry_T_spec y Hv) as (y1 & Hy & Hv1 & Hd1 & Hl1 & Hc1).
  rewrite Hy in H. injection H as ->.
  destruct (larry_T_spec y' Hv1) as (y2 & Hy2 & Hv2 & Hd2 & Hl2 & Hc2).
  rewrite Hy2. f_equal. apply larry_ext; [done..|congruence| |].
  - by rewrite Hl2, Hl1, reverse_involutive.
  - intros ls _. by rewrite Hc2, Hc1, reverse_involutive.
Qed.

Definition swap_total {A} (i j : nat) (l : list A) : list A := default l (swap_at i j l).
Lemma swap_total_Some {A} i j (l : list A) : i < length l -> j < length l -> swap_at i j l = Some (swap_total i j l).
Proof.
  intros Hi Hj. unfold swap_total. destruct (swap_at i j l) eqn:E; [done|].
  assert (is_Some (swap_at i j l)) as [? ?] by (by apply swap_at_is_Some). congruence.
Qed.
Lemma swap_total_lookup {A} i j (l : list A) k :
  i < length l -> j < length l ->
  swap_total i j l !! k = l !! (if decide (k = i) then j else if decide (k = j) then i else k).
Proof. intros. apply swap_at_lookup. by apply swap_total_Some. Qed.
Lemma swap_total_length {A} i j (l : list A) : length (swap_total i j l) = length l.
Proof. unfold swap_total. destruct (swap_at i j l) eqn:E; [|done]. by eapply swap_at_length. Qed.
Lemma swap_total_invol {A} i j (l : list A) :
  i < length l -> j < length l -> swap_total i j (swap_total i j l) = l.
Proof.
  intros Hi Hj. assert (swap_at i j (swap_total i j l) = Some l) as H.
  { apply swap_at_invol. by apply swap_total_Some. }
  unfold swap_total at 1. by rewrite H.
Qed.
Lemma swap_total_fmap {A B} (f : A -> B) i j (l : list A) : f <$> swap_total i j l = swap_total i j (f <$> l).
Proof.
  unfold swap_total, swap_at. rewrite !list_lookup_fmap.
  destruct (l !! i), (l !! j); simpl; try done. by rewrite !list_fmap_insert.
Qed.
Lemma labels_at_swap {A} (label : list (list A)) idx ls i j :
  i < length label -> j < length label ->
  labels_at label idx ls -> labels_at (swap_total i j label) (swap_total i j idx) (swap_total i j ls).
Proof.
  intros Hi Hj [H1 [H2 H3]]%labels_at_alt. apply labels_at_alt. rewrite !swap_total_length.
  split_and!; [done..|]. intros ax axis k l. rewrite !swap_total_lookup by lia. apply H3.
Qed.
Lemma Forall_swap {A} (P : A -> Prop) i j l : i < length l -> j < length l -> Forall P l -> Forall P (swap_total i j l).
Proof.
  intros Hi Hj. rewrite !Forall_lookup. intros H k x. rewrite swap_total_lookup by done. apply H.
Qed.
Lemma swapaxes_spec y a1 a2 i j :
  valid y -> py_axis y a1 = Ok i -> py_axis y a2 = Ok j ->
  exists y', swapaxes y a1 a2 = Ok y' /\ valid y' /\ ldtype y' = ldtype y /\
  llabel y' = swap_total i j (llabel y) /\
  forall ls, in_grid (llabel y) ls -> cell y' (swap_total i j ls) = cell y ls.
Proof.
  intros Hv Hi Hj. unfold swapaxes, np_swapaxes. rewrite Hi, Hj. simpl.
  apply py_axis_ok in Hi as [Hi _]. apply py_axis_ok in Hj as [Hj _].
  rewrite (swap_total_Some i j (llabel y)) by done. simpl.
  pose proof (valid_ndim y Hv) as Hn. change (shape (larr y)) with (lshape y).
  rewrite (swap_total_Some i j (lshape y)) by (unfold lndim in *; lia). simpl.
  rewrite <-(valid_shape y Hv), <-swap_total_fmap.
  assert (Hm : forall idx' ls', labels_at (swap_total i j (llabel y)) idx' ls' ->
    exists idx, swap_at i j idx' = Some idx /\ labels_at (llabel y) idx (swap_total i j ls')).
  { intros idx' ls' H. pose proof (labels_at_lengths _ _ _ H) as [Hx _]. rewrite swap_total_length in Hx.
    eexists. split; [apply swap_total_Some; lia|].
    rewrite <-(swap_total_invol i j (llabel y)) by done.
    apply labels_at_swap; rewrite ?swap_total_length; done. }
  destruct (regrid_is_Some y (swap_total i j (llabel y)) (swap_at i j) (swap_total i j) Hv Hm) as [b Hb].
  rewrite Hb. simpl.
  assert (swap_total i j (llabel y) <> []) as Hne.
  { intros H. apply (f_equal length) in H. rewrite swap_total_length in H. simpl in H. lia. }
  destruct (regrid y (swap_total i j (llabel y)) _ (swap_total i j) b Hv Hne
    (Forall_swap _ _ _ _ Hi Hj (valid_nodup y Hv)) Hb Hm) as [Hv' Hc].
  eexists. split_and!; [done..|]. intros ls Hg. apply in_grid_labels_at in Hg as [idx Hg].
  pose proof (labels_at_lengths _ _ _ Hg) as [_ Hls].
  rewrite Hc. { by rewrite swap_total_invol by lia. }
  apply in_grid_labels_at. eexists. by apply labels_at_swap.
Qed.
Lemma swapaxes_invol y a1 a2 y' : valid y -> swapaxes y a1 a2 = Ok y' -> swapaxes y' a1 a2 = Ok y.
Proof.
  intros Hv H. assert (exists i j, py_axis y a1 = Ok i /\ py_axis y a2 = Ok j) as (i & j & Hi & Hj).
  { unfold swapaxes in H. apply bind_ok in H as (i & ? & (j & ? & _)%bind_ok). eauto. }
  destruct (swapaxes_spec y a1 a2 i j Hv Hi Hj) as (y1 & Hy & Hv1 & Hd1 & Hl1 & Hc1).
  rewrite Hy in H. injection H as ->.
  assert (length (llabel y') = length (llabel y)) as Hlen by (by rewrite Hl1, swap_total_length).
  rewrite <-(py_axis_label y y') in Hi, Hj by done.
  destruct (swapaxes_spec y' a1 a2 i j Hv1 Hi Hj) as (y2 & Hy2 & Hv2 & Hd2 & Hl2 & Hc2).
  apply py_axis_ok in Hi as [Hi _]. apply py_axis_ok in Hj as [Hj _]. rewrite Hlen in Hi, Hj.
  rewrite Hy2. f_equal.
  assert (llabel y2 = llabel y) as Hll by (by rewrite Hl2, Hl1, swap_total_invol).
  apply larry_ext; [done..|congruence|done|].
  intros ls Hg. rewrite Hll in Hg. rewrite <-(Hc1 ls Hg).
  pose proof (in_grid_length _ _ Hg) as Hls.
  rewrite <-(Hc2 (swap_total i j ls)). { by rewrite swap_total_invol by lia. }
  rewrite Hl1. apply in_grid_labels_at in Hg as [idx Hg]. apply in_grid_labels_at. eexists. by apply labels_at_swap.
Qed.

(** * squeeze *)
Definition drop_ones {A B} (label : list (list A)) (l : list B) : list B :=
  (filter (fun p => length p.1 <> 1) (zip label l)).*2.
Lemma drop_ones_cons {A B} (axis : list A) label (x : B) l :
  drop_ones (axis :: label) (x :: l) = if decide (length axis = 1) then drop_ones label l else x :: drop_ones label l.
Proof.
  unfold drop_ones. simpl. rewrite filter_cons. simpl. repeat case_decide; done.
Qed.
Lemma squeeze_label_eq y : valid y -> squeeze_label (lshape y) (llabel y) = filter (fun axis => length axis <> 1) (llabel y).
Proof.
  intros Hv. rewrite <-(valid_shape y Hv). unfold squeeze_label.
  induction (llabel y) as [|axis label IH]; [done|]. csimpl. rewrite !filter_cons. simpl.
  repeat case_decide; csimpl; congruence.
Qed.
Lemma squeeze_shape_eq y : valid y ->
  filter (fun n => n <> 1) (lshape y) = length <$> filter (fun axis => length axis <> 1) (llabel y).
Proof.
  intros Hv. rewrite <-(valid_shape y Hv).
  induction (llabel y) as [|axis label IH]; [done|]. csimpl. rewrite !filter_cons. simpl.
  repeat case_decide; csimpl; try congruence; lia.
Qed.
Lemma squeeze_size label : size_of (length <$> filter (fun axis : list lab => length axis <> 1) label) = size_of (length <$> label).
Proof.
  induction label as [|axis label IH]; [done|]. rewrite filter_cons. csimpl. case_decide as H; csimpl; rewrite IH; [done|].
  assert (length axis = 1) as -> by lia. lia.
Qed.
Lemma squeeze_labels_at label idx (ls : list lab) :
  labels_at label idx ls ->
  labels_at (filter (fun axis => length axis <> 1) label) (drop_ones label idx) (drop_ones label ls) /\
  ravel (length <$> filter (fun axis => length axis <> 1) label) (drop_ones label idx) = ravel (length <$> label) idx.
Proof.
  induction 1 as [|axis i l label idx ls Hi H [IH1 IH2]]; [split; [constructor|done]|].
  rewrite !drop_ones_cons, filter_cons. destruct (decide (length axis = 1)) as [H1|H1].
  - rewrite decide_False by (by intros ?). split; [done|]. rewrite IH2. csimpl.
    apply lookup_lt_Some in Hi. assert (i = 0) as -> by lia. done.
  - rewrite decide_True by done. split; [by constructor|]. csimpl. rewrite squeeze_size, IH2. done.
Qed.
Lemma squeeze_spec y :
  valid y ->
  llabel (squeeze y) = filter (fun axis => length axis <> 1) (llabel y) /\
  ldtype (squeeze y) = ldtype y /\
  (valid (squeeze y) <-> exists axis, axis ∈ llabel y /\ length axis <> 1) /\
  forall ls, in_grid (llabel y) ls -> cell (squeeze y) (drop_ones (llabel y) ls) = cell y ls.
Proof.
  intros Hv. assert (llabel (squeeze y) = filter (fun axis => length axis <> 1) (llabel y)) as Hl.
  { simpl. by apply squeeze_label_eq. }
  assert (Forall NoDup (llabel (squeeze y))) as Hnd.
  { rewrite Hl. apply Forall_forall. intros axis [_ Hin]%elem_of_list_filter.
    pose proof (valid_nodup y Hv) as Hn. rewrite Forall_forall in Hn. auto. }
  assert (lshape (squeeze y) = length <$> llabel (squeeze y)) as Hs.
  { rewrite Hl. by apply squeeze_shape_eq. }
  split_and!; [done..| |].
  - unfold valid. rewrite Hl. split.
    + intros (_ & Hne & _). destruct (filter _ _) as [|axis r] eqn:E; [done|].
      exists axis. assert (axis ∈ axis :: r) as Hin by left. rewrite <-E in Hin.
      by apply elem_of_list_filter in Hin as [? ?].
    + intros (axis & Hin & H1). split_and!.
      * split; [|by apply valid_typed]. unfold arr_wf, asize.
        change (shape _) with (lshape (squeeze y)). rewrite Hs, Hl, squeeze_size, valid_shape by done.
        exact (valid_wf y Hv).
      * intros He. assert (axis ∈ filter (fun axis => length axis <> 1) (llabel y)) as Hf by (by apply elem_of_list_filter).
        rewrite He in Hf. by apply elem_of_nil in Hf.
      * by rewrite Hs, Hl.
      * by rewrite <-Hl.
  - intros ls [idx Hg]%in_grid_labels_at. destruct (squeeze_labels_at _ _ _ Hg) as [Hsq Hr].
    rewrite (cell_at y idx) by (done || by apply valid_nodup).
    rewrite (cell_at _ (drop_ones (llabel y) idx)); [|done|by rewrite Hl].
    apply labels_at_in_range in Hsq. apply labels_at_in_range in Hg.
    rewrite !get_ravel.
    + change (shape (larr (squeeze y))) with (lshape (squeeze y)). rewrite Hs, Hl, Hr, valid_shape by done. done.
    + change (shape (larr y)) with (lshape y). by rewrite <-valid_shape.
    + change (shape (larr (squeeze y))) with (lshape (squeeze y)). by rewrite Hs, Hl.
Qed.

(** * insertaxis *)
(** Where numpy puts the new axis. *)
Definition new_axis (n : nat) (axis : Z) : nat :=
  Z.to_nat (if decide (axis < 0)%Z then (axis + Z.of_nat n + 1)%Z else axis).
Lemma insert_at_fmap {A B} (f : A -> B) ax x l : f <$> insert_at ax x l = insert_at ax (f x) (f <$> l).
Proof. unfold insert_at. rewrite fmap_app, fmap_take, fmap_cons, fmap_drop. done. Qed.
Lemma size_of_insert_one ax sh : size_of (insert_at ax 1 sh) = size_of sh.
Proof.
  unfold insert_at. rewrite size_of_app. cbn [size_of foldr]. rewrite <-(take_drop ax sh) at 3.
  rewrite size_of_app. unfold size_of. lia.
Qed.
Lemma ravel_insert_one ax sh idx :
  in_range sh idx -> ravel (insert_at ax 1 sh) (insert_at ax 0 idx) = ravel sh idx.
Proof.
  revert ax idx. induction sh as [|n sh IH]; intros ax idx Hr.
  - apply in_range_nil in Hr as ->. by destruct ax.
  - apply in_range_cons in Hr as (i & idx' & -> & Hi & Hr). destruct ax as [|ax].
    + simpl. lia.
    + change (insert_at (S ax) 1 (n :: sh)) with (n :: insert_at ax 1 sh).
      change (insert_at (S ax) 0 (i :: idx')) with (i :: insert_at ax 0 idx').
      simpl. rewrite IH by done. by rewrite size_of_insert_one.
Qed.
Lemma clamp_new_axis n axis :
  (- Z.of_nat n - 1 <= axis <= Z.of_nat n)%Z ->
  clamp_pos n (if decide (axis < 0)%Z then (axis + Z.of_nat n + 1)%Z else axis) = new_axis n axis /\
  clamp_pos n (if decide (axis = -1)%Z then Z.of_nat n else if decide (axis < -1)%Z then (axis + 1)%Z else axis) = new_axis n axis.
Proof. intros H. unfold clamp_pos, new_axis. repeat case_decide; lia. Qed.
Lemma insertaxis_spec y axis name :
  valid y -> (- Z.of_nat (lndim y) - 1 <= axis <= Z.of_nat (lndim y))%Z ->
  exists y', insertaxis y (Some axis) name = Ok y' /\ valid y' /\ ldtype y' = ldtype y /\
  llabel y' = insert_at (new_axis (lndim y) axis) [name] (llabel y) /\
  forall ls, in_grid (llabel y) ls -> cell y' (insert_at (new_axis (lndim y) axis) name ls) = cell y ls.
Proof.
  intros Hv Hax. pose proof (valid_ndim y Hv) as Hn. unfold insertaxis, expand_dims. simpl.
  rewrite Hn. change (ndim (larr y)) with (lndim y). change (shape (larr y)) with (lshape y).
  destruct (clamp_new_axis (lndim y) axis Hax) as [-> ->]. set (p := new_axis (lndim y) axis).
  assert (p <= lndim y) as Hp. { unfold p, new_axis. case_decide; lia. }
  set (L' := insert_at p [name] (llabel y)).
  assert (length <$> L' = insert_at p 1 (lshape y)) as HL.
  { unfold L'. rewrite insert_at_fmap, (valid_shape y Hv). done. }
  rewrite <-HL.
  assert (Forall NoDup L') as Hnd.
  { pose proof (valid_nodup y Hv) as Hnd. rewrite <-(take_drop p (llabel y)) in Hnd.
    apply Forall_app in Hnd as [? ?]. apply Forall_app. split; [done|]. constructor; [apply NoDup_singleton|done]. }
  assert (L' <> []) as Hne. { unfold L', insert_at. by destruct (take p (llabel y)). }
  set (y' := Larry (Nda (ldtype y) (Arr (length <$> L') (data (larr y)))) L').
  assert (valid y') as Hv'.
  { split_and!; [|done..]. split; [|by apply valid_typed]. unfold arr_wf, asize. simpl.
    rewrite HL, size_of_insert_one. exact (valid_wf y Hv). }
  exists y'. split_and!; try done.
  - by apply make_some_ok.
  - intros ls [idx Hg]%in_grid_labels_at.
    assert (labels_at L' (insert_at p 0 idx) (insert_at p name ls)) as Hg' by (by apply labels_at_insert_at).
    rewrite (cell_at y idx) by (done || by apply valid_nodup).
    rewrite (cell_at y' (insert_at p 0 idx)) by done.
    apply labels_at_in_range in Hg, Hg'. rewrite (valid_shape y Hv) in Hg.
    rewrite !get_ravel by done. unfold y'. simpl. rewrite HL, ravel_insert_one by done. done.
Qed.

Lemma py_axis_new y y' axis :
  length (llabel y') = S (length (llabel y)) ->
  (- Z.of_nat (length (llabel y)) - 1 <= axis <= Z.of_nat (length (llabel y)))%Z ->
  py_axis y' axis = Ok (new_axis (length (llabel y)) axis).
Proof.
  intros Hl Hax. apply py_axis_ok. rewrite Hl. unfold new_axis. case_decide; lia.
Qed.
Lemma in_grid_insert_at label ls p axis a :
  in_grid label ls -> a ∈ axis -> in_grid (insert_at p axis label) (insert_at p a ls).
Proof.
  rewrite !in_grid_labels_at. intros [idx H] [i Hi]%elem_of_list_lookup. eexists. by apply labels_at_insert_at.
Qed.
Lemma insertaxis_pull y axis name y' :
  valid y -> (- Z.of_nat (lndim y) - 1 <= axis <= Z.of_nat (lndim y))%Z ->
  insertaxis y (Some axis) name = Ok y' ->
  lshape y <> [1] -> pull y' name (Some axis) = Ok (OLar y).
Proof.
  intros Hv Hax Hy' Hs. destruct (insertaxis_spec y axis name Hv Hax) as (y1 & Hy & Hv1 & Hd & Hl & Hc).
  rewrite Hy in Hy'. injection Hy' as ->. pose proof (valid_ndim y Hv) as Hn.
  assert (new_axis (lndim y) axis <= length (llabel y)) as Hple. { unfold new_axis. case_decide; lia. }
  assert (py_axis y' axis = Ok (new_axis (lndim y) axis)) as Hp.
  { rewrite <-Hn. apply py_axis_new; [|lia]. rewrite Hl, insert_at_length by lia. done. }
  set (p := new_axis (lndim y) axis) in *.
  assert (llabel y' !! p = Some [name]) as Hlp. { rewrite Hl. by apply insert_at_lookup. }
  destruct (pull_ok y' name axis p [name]) as [o Ho]; [done..|by left|].
  assert (0 < lndim y). { destruct Hv as (_ & Hne & _). rewrite <-Hn. destruct (llabel y); [done|simpl; lia]. }
  destruct (pull_spec y' name axis o) as (ax & l & Hp' & Hl' & _ & Hz); [done| |done|].
  { pose proof (valid_ndim y' Hv1) as Hn'. rewrite Hl, insert_at_length in Hn' by lia. lia. }
  rewrite Hp in Hp'. injection Hp' as <-.
  assert (remove_at p (llabel y') = llabel y) as Hrem. { rewrite Hl. by apply remove_insert_at. }
  rewrite Hrem in Hz. destruct Hz as (z & -> & Hvz & Hdz & Hlz & Hcz).
  { by rewrite (valid_shape y Hv). }
  rewrite Ho. do 2 f_equal. apply larry_ext; [done..|congruence|done|].
  intros ls Hg. rewrite Hcz by done. apply Hc. by rewrite <-Hlz.
Qed.
Lemma insertaxis_squeeze y axis name y' :
  valid y -> (- Z.of_nat (lndim y) - 1 <= axis <= Z.of_nat (lndim y))%Z ->
  insertaxis y (Some axis) name = Ok y' ->
  (forall n, n ∈ lshape y -> n <> 1) -> squeeze y' = y.
Proof.
  intros Hv Hax Hy' Hs. destruct (insertaxis_spec y axis name Hv Hax) as (y1 & Hy & Hv1 & Hd & Hl & Hc).
  rewrite Hy in Hy'. injection Hy' as ->.
  destruct (squeeze_spec y' Hv1) as (Hsl & Hsd & Hsv & Hsc).
  set (p := new_axis (lndim y) axis) in *.
  assert (Hne1 : forall axis, axis ∈ llabel y -> length axis <> 1).
  { intros a Ha. apply Hs. rewrite <-(valid_shape y Hv). by apply elem_of_list_fmap_1. }
  assert (Hfil : forall k : list (list lab), (forall a, a ∈ k -> length a <> 1) -> filter (fun a => length a <> 1) k = k).
  { induction k as [|a k IH]; intros H; [done|]. rewrite filter_cons_True by (apply H; left).
    f_equal. apply IH. intros. apply H. by right. }
  assert (llabel (squeeze y') = llabel y) as Hll.
  { rewrite Hsl, Hl. unfold insert_at. rewrite filter_app, filter_cons_False by (simpl; lia).
    rewrite !Hfil; [apply take_drop| |].
    - intros a Ha. apply Hne1. rewrite <-(take_drop p (llabel y)). apply elem_of_app. by right.
    - intros a Ha. apply Hne1. rewrite <-(take_drop p (llabel y)). apply elem_of_app. by left. }
  assert (valid (squeeze y')) as Hvs.
  { apply Hsv. destruct Hv as (_ & Hne & _). destruct (llabel y) as [|a k] eqn:E; [done|].
    exists a. split; [|apply Hne1; left]. rewrite Hl. unfold insert_at.
    assert (a ∈ a :: k) as Ha by left. rewrite <-(take_drop p (a :: k)) in Ha.
    apply elem_of_app in Ha as [?|?]; apply elem_of_app; [by left|right; by right]. }
  apply larry_ext; [done..|congruence|done|].
  intros ls Hg. rewrite Hll in Hg. rewrite <-(Hc ls) by done.
  rewrite <-Hsc by (rewrite Hl; apply in_grid_insert_at; [done|left]). f_equal.
  rewrite Hl. clearbody p. clear -Hg Hne1. revert p. induction Hg as [|a axis ls label Ha Hg IH]; intros p.
  - destruct p; [|]; unfold insert_at; simpl; rewrite ?drop_ones_cons; done.
  - destruct p as [|p].
    + change (insert_at 0 name (a :: ls)) with (name :: a :: ls).
      change (insert_at 0 [name] (axis :: label)) with ([name] :: axis :: label).
      rewrite !drop_ones_cons. simpl. rewrite decide_False by (apply Hne1; left).
      f_equal. clear -Hg Hne1. assert (forall x, x ∈ label -> length x <> 1) as H by (intros; apply Hne1; by right).
      clear Hne1. induction Hg as [|a axis' ls label Ha Hg IH]; [done|].
      rewrite drop_ones_cons, decide_False by (apply H; left). f_equal. apply IH. intros. apply H. by right.
    + change (insert_at (S p) name (a :: ls)) with (a :: insert_at p name ls).
      change (insert_at (S p) [name] (axis :: label)) with (axis :: insert_at p [name] label).
      rewrite drop_ones_cons, decide_False by (apply Hne1; left). f_equal. apply IH. intros. apply Hne1. by right.
Qed.
