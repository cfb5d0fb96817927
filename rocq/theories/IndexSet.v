(** Assignment through an index. *)
From Verif Require Export IndexGet.

(** * Scatter *)
Section scatter.
  Context {A : Type}.
  Implicit Types a b : arr A.
  Definition scatter_step (m : list nat -> option (list nat)) (v : list nat -> res A) (b : arr A) (idx : list nat) : res (arr A) :=
    p ← of_opt IndexError (m idx); u ← v idx; Ok (arr_set b p u).

  Lemma scatter_spec m v idxs a b :
    arr_wf a ->
    (forall idx p, idx ∈ idxs -> m idx = Some p -> in_range (shape a) p) ->
    (forall i1 i2 p, i1 ∈ idxs -> i2 ∈ idxs -> m i1 = Some p -> m i2 = Some p -> v i1 = v i2) ->
    foldM (scatter_step m v) a idxs = Ok b ->
    shape b = shape a /\ arr_wf b /\
    (forall idx, idx ∈ idxs -> exists p u, m idx = Some p /\ v idx = Ok u /\ aget b p = Some u) /\
    (forall p, (forall idx, idx ∈ idxs -> m idx <> Some p) -> aget b p = aget a p).
  Proof.
    revert a. induction idxs as [|i idxs IH]; intros a Hwf Hr Hc H; simpl in H.
    { injection H as <-. split_and!; try done. by intros ? ?%elem_of_nil. }
    destruct (scatter_step m v a i) as [a'|] eqn:E; [|done].
    unfold scatter_step in E. apply bind_ok in E as (p & Hp & E). apply of_opt_ok in Hp. apply bind_ok in E as (u & Hu & [= <-]).
    assert (Hpr : in_range (shape a) p) by (apply (Hr i); [by left|done]).
    destruct (IH (arr_set a p u)) as (Hs & Hw & Hin & Hout); [by apply arr_set_wf| | |done|].
    { intros idx q Hidx. apply Hr. by right. }
    { intros i1 i2 q H1 H2. apply Hc; by right. }
    split_and!; [done|done| |].
    - intros idx Hidx. apply elem_of_cons in Hidx as [->|Hidx]; [|by apply Hin].
      destruct (decide (Exists (fun j => m j = Some p) idxs)) as [He|He].
      + apply Exists_exists in He as (j & Hj & Hmj). destruct (Hin j Hj) as (p' & u' & Hp' & Hu' & Hg).
        assert (p' = p) as -> by congruence. exists p, u'. split_and!; try done. rewrite <-Hu'. apply (Hc i j p); [by left|by right|done|done].
      + exists p, u. split_and!; try done. rewrite Hout.
        * rewrite get_arr_set by done. by rewrite decide_True.
        * intros j Hj Hmj. apply He. apply Exists_exists. eauto.
    - intros q Hq. rewrite Hout by (intros j Hj; apply Hq; by right). rewrite get_arr_set by done.
      rewrite decide_False; [done|]. intros ->. apply (Hq i); [by left|done].
  Qed.
  Lemma scatter_total m v idxs a :
    (forall idx, idx ∈ idxs -> is_Some (m idx) /\ exists u, v idx = Ok u) -> exists b, foldM (scatter_step m v) a idxs = Ok b.
  Proof.
    revert a. induction idxs as [|i idxs IH]; intros a H; [by eexists|]. simpl.
    destruct (H i ltac:(by left)) as [[p Hp] [u Hu]]. unfold scatter_step at 1. rewrite Hp. simpl. rewrite Hu. simpl. apply IH.
    intros idx Hidx. apply H. by right.
  Qed.
End scatter.

(** * Cells written *)
Lemma in_range_insert_at p n sh idx :
  p <= length sh -> in_range (insert_at p n sh) idx <-> exists k sl, idx = insert_at p k sl /\ k < n /\ in_range sh sl.
Proof.
  intros Hp. unfold in_range. split.
  - intros H. unfold insert_at in H. apply Forall2_app_inv_r in H as (i1 & i2 & H1 & H2 & ->).
    inversion H2 as [|k ? sl2 ? Hk H3]; subst. exists k, (i1 ++ sl2). split_and!; [|done|].
    + pose proof (Forall2_length _ _ _ H1) as Hl. rewrite take_length in Hl. unfold insert_at.
      rewrite take_app_alt, drop_app_alt by lia. done.
    + rewrite <-(take_drop p sh). by apply Forall2_app.
  - intros (k & sl & -> & Hk & H). unfold insert_at. apply Forall2_app; [by apply Forall2_take|].
    constructor; [done|by apply Forall2_drop].
Qed.
Lemma slices_before_le rs : slices_before rs <= length (slice_lens rs).
Proof. induction rs as [|[p|ps|ps] rs IH]; simpl; [lia..| |lia]. change (S (slices_before rs) <= S (length (slice_lens rs))). lia. Qed.

Lemma select_image (L : list (list lab)) items rs ss :
  length items <= length L -> resolved (length <$> L) items rs -> sels L rs ss -> length (list_lens rs) <= 1 ->
  exists sh m, np_select (length <$> L) items = Ok (sh, m) /\
    (forall idx, in_range sh idx -> is_Some (m idx)) /\
    forall p, (exists idx, in_range sh idx /\ m idx = Some p) <->
              exists idx, in_range (length <$> sel_labels ss) idx /\ weave_in rs idx = Some p.
Proof.
  intros Hlen Hr Hs H1. rewrite (np_select_resolved (length <$> L) items rs); [|by rewrite fmap_length|exact Hr].
  rewrite (sels_shape _ _ _ Hs).
  assert (Hsome : forall idx, in_range (omap r_len rs) idx -> is_Some (weave_in rs idx)).
  { intros idx Hi. rewrite <-(sels_shape _ _ _ Hs) in Hi. destruct (labels_at_exists _ _ Hi) as [ls Hls].
    destruct (weave_in_labels _ _ _ _ _ Hs Hls) as (idx0 & _ & -> & _). eauto. }
  destruct (list_lens rs) as [|n [|]] eqn:El; [| |simpl in H1; lia].
  - exists (slice_lens rs), (weave rs 0). split; [done|]. rewrite no_list_shape in * by done.
    setoid_rewrite weave_no_list; [|done..]. split; [done|]. done.
  - rewrite broadcast_one. simpl. set (q := if adjacent rs then slices_before rs else 0).
    assert (Hq : q <= length (slice_lens rs)). { unfold q. pose proof (slices_before_le rs). destruct (adjacent rs); lia. }
    pose proof (list_place_le rs n El) as Hpl. rewrite (one_list_shape rs n El) in *.
    eexists _, _. split; [done|].
    assert (Hm : forall k sl, k < n -> in_range (slice_lens rs) sl ->
      (k0 ← insert_at q k sl !! q; weave rs k0 (remove_at q (insert_at q k sl))) = weave_in rs (insert_at (list_place rs) k sl)).
    { intros k sl Hk Hsl. pose proof (in_range_length _ _ Hsl) as Hl. rewrite insert_at_lookup by lia. simpl.
      rewrite remove_insert_at by lia. by apply (weave_one_list rs n). }
    split.
    + intros idx Hidx. apply in_range_insert_at in Hidx as (k & sl & -> & Hk & Hsl); [|done].
      rewrite Hm by done. apply Hsome. apply in_range_insert_at; [done|]. eauto.
    + intros p. split.
      * intros (idx & Hidx & Hp). apply in_range_insert_at in Hidx as (k & sl & -> & Hk & Hsl); [|done].
        rewrite Hm in Hp by done. exists (insert_at (list_place rs) k sl). split; [|done]. apply in_range_insert_at; [done|]. eauto.
      * intros (idx & Hidx & Hp). apply in_range_insert_at in Hidx as (k & sl & -> & Hk & Hsl); [|done].
        exists (insert_at q k sl). split; [apply in_range_insert_at; [done|]; eauto|]. by rewrite Hm.
Qed.

(** * A scalar value *)
Lemma item_resolve_sound l it r :
  not_larry it -> resolve (length l) it = Ok r -> exists s, selects l it s /\ sel_of l r = Some s.
Proof.
  intros Hnl Hr. destruct (resolve_sel l it r Hr) as [s Hs]. exists s. split; [|done].
  destruct it as [z|sl|zs|bs|m]; simpl in *; [..|done].
  - apply bind_ok in Hr as (p & Hp & [= <-]). simpl in Hs. apply bind_Some in Hs as (x & Hx & [= <-]).
    apply of_opt_ok in Hp. unfold py_get. by rewrite Hp.
  - apply bind_ok in Hr as (p & Hp & [= <-]). simpl in Hs. apply bind_Some in Hs as (x & Hx & [= <-]).
    apply py_slice_Ok. eauto.
  - apply bind_ok in Hr as (ps & Hp & [= <-]). simpl in Hs. apply bind_Some in Hs as (x & Hx & [= <-]).
    apply of_opt_ok in Hp. apply mapM_Some. unfold py_get. rewrite mapM_bind, Hp. done.
  - case_decide as Hlt; [|done]. injection Hr as <-. simpl in Hs. apply bind_Some in Hs as (x & Hx & [= <-]).
    assert (Hb : forall i, bs !! i = Some true -> i < length l).
    { intros i Hi. rewrite Forall_forall in Hlt. apply Hlt. by apply elem_of_true_positions. }
    rewrite (true_positions_mapM bs l Hb) in Hx. by injection Hx as <-.
Qed.
Lemma items_resolve_sound L its rs :
  Forall not_larry its -> Forall3 (fun n it r => resolve n it = Ok r) (length <$> L) its rs ->
  exists ss, Forall3 selects L its ss /\ sels L rs ss.
Proof.
  intros Hok. revert its rs Hok. induction L as [|l L IH]; intros its rs Hok Hr; simpl in Hr; inversion Hr as [|? it r ? its' rs' Hr1 Hr2]; subst.
  { exists []. split; constructor. }
  apply Forall_cons in Hok as [Hok1 Hok]. destruct (item_resolve_sound l it r Hok1 Hr1) as (s & Hs1 & Hs2).
  destruct (IH _ _ Hok Hr2) as (ss & H1 & H2). exists (s :: ss). split; by constructor.
Qed.
Lemma not_larry_ok its : Forall not_larry its -> Forall item_ok its.
Proof. intros H. eapply Forall_impl; [exact H|]. by intros []. Qed.

Lemma valid_of_array y b :
  valid y -> shape b = lshape y -> arr_wf b -> (forall idx v, aget b idx = Some v -> has_dtype (ldtype y) v = true) ->
  valid (Larry (Nda (ldtype y) b) (llabel y)).
Proof.
  intros Hv Hs Hw Ht. pose proof Hv as (_ & Hne & Hsh & HN). split_and!; try done.
  - by apply nda_wf_get.
  - unfold lshape, nd_shape. simpl. by rewrite Hs.
Qed.
Lemma set_cell y b idx ls :
  valid y -> labels_at (llabel y) idx ls -> cell (Larry (Nda (ldtype y) b) (llabel y)) ls = aget b idx.
Proof. intros Hv Hl. by rewrite (cell_at _ idx ls) by (done || by apply (valid_nodup y)). Qed.

Lemma sel_full_grid L rs ss ls full :
  sels L rs ss -> in_grid (sel_labels ss) ls -> sel_full ss ls = Some full ->
  exists idx p, in_range (length <$> sel_labels ss) idx /\ labels_at (sel_labels ss) idx ls /\ weave_in rs idx = Some p /\ labels_at L p full.
Proof.
  intros Hs Hg Hf. apply in_grid_labels_at in Hg as [idx Hidx].
  destruct (weave_in_labels _ _ _ _ _ Hs Hidx) as (p & full' & Hp & Hf' & Hla).
  assert (full' = full) as -> by congruence. exists idx, p. split_and!; try done. by eapply labels_at_in_range.
Qed.

Lemma selects_all_resolved y items ss :
  valid y -> Forall item_ok items -> selects_all (llabel y) items ss ->
  length items <= lndim y /\ exists rs, resolved (lshape y) items rs /\ sels (llabel y) rs ss.
Proof.
  intros Hv Hok [Hlen Hss]. rewrite valid_ndim in Hlen by done. split; [done|]. rewrite (valid_ndim y Hv) in Hss.
  change (items ++ replicate (lndim y - length items) (ISlice slice_all)) with (pad (lndim y) items) in Hss.
  destruct (items_complete _ _ _ (pad_ok (lndim y) items Hok) Hss) as (rs & Hr & Hsel & _).
  exists rs. split; [|done]. unfold resolved. by rewrite <-(valid_shape y Hv) at 1.
Qed.
Lemma resolved_selects_all y items rs :
  valid y -> Forall not_larry items -> length items <= lndim y -> resolved (lshape y) items rs ->
  exists ss, selects_all (llabel y) items ss /\ sels (llabel y) rs ss.
Proof.
  intros Hv Hok Hlen Hr. unfold resolved in Hr. rewrite <-(valid_shape y Hv) in Hr at 1.
  change (length (lshape y)) with (lndim y) in Hr.
  destruct (items_resolve_sound (llabel y) (pad (lndim y) items) rs) as (ss & H1 & H2); [|done|].
  { unfold pad. apply Forall_app. split; [done|]. by apply Forall_replicate. }
  exists ss. split; [|done]. split; [by rewrite valid_ndim|]. by rewrite valid_ndim.
Qed.

Lemma setitem_scalar_spec y items rs ss u b :
  valid y -> length items <= lndim y -> resolved (lshape y) items rs -> sels (llabel y) rs ss -> length (list_lens rs) <= 1 ->
  has_dtype (ldtype y) u = true ->
  np_setitem (larr y) items (fun _ => Ok u) = Ok b ->
  overwritten y ss (fun _ w => w = u) (Larry (Nda (ldtype y) b) (llabel y)).
Proof.
  intros Hv Hlen Hr Hs H1 Hu H. unfold np_setitem in H. apply bind_ok in H as (q & Hq & H).
  change (shape (larr y)) with (lshape y) in *. rewrite <-(valid_shape y Hv) in Hq, Hr.
  destruct (select_image (llabel y) items rs ss) as (sh & m & Hsel & Hsome & Himg); [by rewrite valid_ndim|done..|].
  rewrite Hsel in Hq. injection Hq as <-. simpl in H.
  assert (Hrange : forall idx p, idx ∈ indices sh -> m idx = Some p -> in_range (shape (larr y)) p).
  { intros idx p Hidx Hp. apply elem_of_indices in Hidx.
    destruct (proj1 (Himg p)) as (idx2 & Hi2 & Hw); [eauto|].
    destruct (labels_at_exists _ _ Hi2) as [ls Hls]. destruct (weave_in_labels _ _ _ _ _ Hs Hls) as (p' & full & Hp' & _ & Hla).
    assert (p' = p) as -> by congruence. change (shape (larr y)) with (lshape y). rewrite <-valid_shape by done. by eapply labels_at_in_range. }
  change (foldM (scatter_step m (fun _ => Ok u)) (larr y) (indices sh) = Ok b) in H.
  destruct (scatter_spec m (fun _ => Ok u) (indices sh) (larr y) b (valid_wf y Hv) Hrange ltac:(done) H) as (Hsb & Hwb & Hin & Hout).
  assert (Hin' : forall idx, in_range (length <$> sel_labels ss) idx -> forall p, weave_in rs idx = Some p -> aget b p = Some u).
  { intros idx Hidx p Hp. destruct (proj2 (Himg p)) as (idx2 & Hi2 & Hm2); [eauto|].
    destruct (Hin idx2 ltac:(by apply elem_of_indices)) as (p2 & u2 & E1 & E2 & E3). congruence. }
  assert (Hvz : valid (Larry (Nda (ldtype y) b) (llabel y))).
  { apply valid_of_array; [done|done|done|]. intros p v Hg.
    destruct (decide (Exists (fun idx => m idx = Some p) (indices sh))) as [He|He].
    - apply Exists_exists in He as (idx & Hidx & Hm). destruct (Hin idx Hidx) as (p2 & u2 & E1 & E2 & E3).
      assert (v = u) as -> by congruence. done.
    - rewrite Hout in Hg by (intros idx Hidx Hm; apply He, Exists_exists; eauto).
      eapply (nda_wf_typed (lx y)); [by destruct Hv|exact Hg]. }
  split_and!; [done|done|done| |].
  - intros ls full Hls Hf. destruct (sel_full_grid _ _ _ _ _ Hs Hls Hf) as (idx & p & Hidx & _ & Hp & Hla).
    exists u. split; [|done]. rewrite (set_cell y b p full Hv Hla). by eapply Hin'.
  - intros full Hno. destruct (decide (in_grid (llabel y) full)) as [Hg|Hg].
    + apply in_grid_labels_at in Hg as [p Hla]. rewrite (set_cell y b p full Hv Hla), Hout.
      * symmetry. apply cell_at; [by apply valid_nodup|done].
      * intros idx Hidx Hm. apply elem_of_indices in Hidx. destruct (proj1 (Himg p)) as (idx2 & Hi2 & Hw); [eauto|].
        destruct (labels_at_exists _ _ Hi2) as [ls Hls]. destruct (weave_in_labels _ _ _ _ _ Hs Hls) as (p' & full' & Hp' & Hf' & Hla').
        assert (p' = p) as -> by congruence. assert (full' = full) as -> by (by eapply labels_at_fun).
        apply (Hno ls); [|done]. apply in_grid_labels_at. eauto.
    + rewrite (proj2 (cell_None_grid y full Hv) Hg). by apply cell_None_grid.
Qed.

Lemma setitem_val_sound y ix v z :
  valid y -> Forall not_larry (index_items ix) -> one_list (index_items ix) ->
  larry_setitem y ix (SVal v) = Ok z ->
  exists ss u, selects_all (llabel y) (index_items ix) ss /\ store (ldtype y) v = Ok u /\ overwritten y ss (fun _ w => w = u) z.
Proof.
  intros Hv Hok H1 H. unfold larry_setitem in H. apply bind_ok in H as (u & Hu & H). apply bind_ok in H as (b & Hb & [= <-]).
  pose proof Hb as Hb'. unfold np_setitem in Hb'. apply bind_ok in Hb' as (q & Hq & _).
  apply np_select_inv in Hq as (Hlen & rs & Hr & _). change (shape (larr y)) with (lshape y) in *. change (length (lshape y)) with (lndim y) in Hlen.
  destruct (resolved_selects_all y _ rs Hv Hok Hlen Hr) as (ss & Hsa & Hs). exists ss, u. split_and!; [done|done|].
  eapply setitem_scalar_spec; try done.
  - pose proof (resolved_kind _ _ _ Hr) as Hk. eapply one_list_lens; [exact Hk|]. by apply pad_one_list.
  - by eapply store_typed.
Qed.
Lemma setitem_val_complete y ix v u ss :
  valid y -> Forall not_larry (index_items ix) -> one_list (index_items ix) ->
  selects_all (llabel y) (index_items ix) ss -> store (ldtype y) v = Ok u ->
  exists z, larry_setitem y ix (SVal v) = Ok z.
Proof.
  intros Hv Hok H1 Hsa Hu. unfold larry_setitem. rewrite Hu. simpl.
  destruct (selects_all_resolved y _ ss Hv (not_larry_ok _ Hok) Hsa) as (Hlen & rs & Hr & Hs).
  unfold np_setitem. change (shape (larr y)) with (lshape y). pose proof (resolved_kind _ _ _ Hr) as Hk.
  assert (Hll : length (list_lens rs) <= 1) by (eapply one_list_lens; [exact Hk|by apply pad_one_list]).
  rewrite <-(valid_shape y Hv) in *.
  destruct (select_image (llabel y) (index_items ix) rs ss) as (sh & m & Hsel & Hsome & _); [by rewrite valid_ndim|done..|].
  rewrite Hsel. simpl. change (exists z, (b ← foldM (scatter_step m (fun _ => Ok u)) (larr y) (indices sh); Ok (Larry (Nda (ldtype y) b) (llabel y))) = Ok z).
  destruct (scatter_total m (fun _ => Ok u) (indices sh) (larr y)) as [b Hb].
  { intros idx Hidx. apply elem_of_indices in Hidx. split; [by apply Hsome|]. eauto. }
  rewrite Hb. simpl. eauto.
Qed.

(** * A larry value *)
Lemma sel_full_inj ss ls1 ls2 full : sel_full ss ls1 = Some full -> sel_full ss ls2 = Some full -> ls1 = ls2.
Proof.
  revert ls1 ls2 full. induction ss as [|[x|l] ss IH]; intros ls1 ls2 full H1 H2; simpl in *.
  - by destruct ls1, ls2.
  - apply bind_Some in H1 as (f1 & H1 & [= <-]). apply bind_Some in H2 as (f2 & H2 & [= ->]). eauto.
  - destruct ls1 as [|a ls1]; [done|]. destruct ls2 as [|b ls2]; [done|].
    apply bind_Some in H1 as (f1 & H1 & [= <-]). apply bind_Some in H2 as (f2 & H2 & [= -> ->]). f_equal. eauto.
Qed.

Lemma scatter_larry y z ss sh m b :
  valid y -> valid z -> sh = length <$> sel_labels ss -> llabel z = sel_labels ss ->
  (forall idx ls, labels_at (sel_labels ss) idx ls ->
     exists idx0 full, m idx = Some idx0 /\ sel_full ss ls = Some full /\ labels_at (llabel y) idx0 full) ->
  foldM (scatter_step m (fun idx => v ← of_opt ValueError (aget (larr z) idx); store (ldtype y) v)) (larr y) (indices sh) = Ok b ->
  overwritten y ss (fun ls w => exists u, cell z ls = Some u /\ store (ldtype y) u = Ok w) (Larry (Nda (ldtype y) b) (llabel y)).
Proof.
  intros Hv Hz -> Hlz Hmap H. set (vf := fun idx => v ← of_opt ValueError (aget (larr z) idx); store (ldtype y) v) in *.
  assert (Hlab : forall idx, idx ∈ indices (length <$> sel_labels ss) -> exists ls, labels_at (sel_labels ss) idx ls).
  { intros idx Hidx. apply elem_of_indices in Hidx. by apply labels_at_exists. }
  assert (Hrange : forall idx p, idx ∈ indices (length <$> sel_labels ss) -> m idx = Some p -> in_range (shape (larr y)) p).
  { intros idx p Hidx Hp. destruct (Hlab idx Hidx) as [ls Hls]. destruct (Hmap _ _ Hls) as (p' & full & Hp' & _ & Hla).
    assert (p' = p) as -> by congruence. change (shape (larr y)) with (lshape y). rewrite <-valid_shape by done. by eapply labels_at_in_range. }
  assert (HNz : Forall NoDup (sel_labels ss)) by (rewrite <-Hlz; by apply valid_nodup).
  assert (Hcons : forall i1 i2 p, i1 ∈ indices (length <$> sel_labels ss) -> i2 ∈ indices (length <$> sel_labels ss) ->
    m i1 = Some p -> m i2 = Some p -> vf i1 = vf i2).
  { intros i1 i2 p Hi1 Hi2 Hp1 Hp2. destruct (Hlab i1 Hi1) as [ls1 Hl1]. destruct (Hlab i2 Hi2) as [ls2 Hl2].
    destruct (Hmap _ _ Hl1) as (p1 & f1 & E1 & Hf1 & Ha1). destruct (Hmap _ _ Hl2) as (p2 & f2 & E2 & Hf2 & Ha2).
    assert (p1 = p) as -> by congruence. assert (p2 = p) as -> by congruence.
    assert (f2 = f1) as -> by (by eapply labels_at_fun). assert (ls1 = ls2) as -> by (by eapply sel_full_inj).
    f_equal. apply locate_Some in Hl1, Hl2; [|done..]. congruence. }
  destruct (scatter_spec m vf _ (larr y) b (valid_wf y Hv) Hrange Hcons H) as (Hsb & Hwb & Hin & Hout).
  assert (Hvf : forall idx ls u, labels_at (sel_labels ss) idx ls -> vf idx = Ok u -> exists w, cell z ls = Some w /\ store (ldtype y) w = Ok u).
  { intros idx ls u Hl Hu. unfold vf in Hu. apply bind_ok in Hu as (w & Hw & Hu). apply of_opt_ok in Hw. exists w. split; [|done].
    rewrite <-Hlz in Hl. rewrite (cell_at z idx ls); [done|by apply valid_nodup|done]. }
  assert (Hvz : valid (Larry (Nda (ldtype y) b) (llabel y))).
  { apply valid_of_array; [done|done|done|]. intros p v Hg.
    destruct (decide (Exists (fun idx => m idx = Some p) (indices (length <$> sel_labels ss)))) as [He|He].
    - apply Exists_exists in He as (idx & Hidx & Hm). destruct (Hin idx Hidx) as (p2 & u2 & E1 & E2 & E3).
      assert (u2 = v) as -> by congruence. destruct (Hlab idx Hidx) as [ls Hl]. destruct (Hvf _ _ _ Hl E2) as (w & _ & Hst).
      by eapply store_typed.
    - rewrite Hout in Hg by (intros idx Hidx Hm; apply He, Exists_exists; eauto).
      eapply (nda_wf_typed (lx y)); [by destruct Hv|exact Hg]. }
  split_and!; [done|done|done| |].
  - intros ls full Hls Hf. apply in_grid_labels_at in Hls as [idx Hl]. destruct (Hmap _ _ Hl) as (p & full' & Hp & Hf' & Hla).
    assert (full' = full) as -> by congruence.
    assert (Hidx : idx ∈ indices (length <$> sel_labels ss)) by (apply elem_of_indices; by eapply labels_at_in_range).
    destruct (Hin idx Hidx) as (p2 & u2 & E1 & E2 & E3). assert (p2 = p) as -> by congruence.
    exists u2. split; [by rewrite (set_cell y b p full Hv Hla)|]. by eapply Hvf.
  - intros full Hno. destruct (decide (in_grid (llabel y) full)) as [Hg|Hg].
    + apply in_grid_labels_at in Hg as [p Hla]. rewrite (set_cell y b p full Hv Hla), Hout.
      * symmetry. apply cell_at; [by apply valid_nodup|done].
      * intros idx Hidx Hm. destruct (Hlab idx Hidx) as [ls Hl]. destruct (Hmap _ _ Hl) as (p' & full' & Hp' & Hf' & Hla').
        assert (p' = p) as -> by congruence. assert (full' = full) as -> by (by eapply labels_at_fun).
        apply (Hno ls); [|done]. apply in_grid_labels_at. eauto.
    + rewrite (proj2 (cell_None_grid y full Hv) Hg). by apply cell_None_grid.
Qed.

Lemma setitem_larry_sound y ix z y' :
  valid y -> valid z -> Forall not_larry (index_items ix) -> one_list (index_items ix) ->
  joined (index_items ix) \/ list_first (index_items ix) -> complete y ix ->
  larry_setitem y ix (SLarry z) = Ok y' ->
  exists ss, selects_all (llabel y) (index_items ix) ss /\ llabel z = sel_labels ss /\
    overwritten y ss (fun ls w => exists u, cell z ls = Some u /\ store (ldtype y) u = Ok w) y'.
Proof.
  intros Hv Hz Hok H1 Hj Hc H. unfold larry_setitem in H. apply bind_ok in H as (g & Hg & H).
  destruct (getitem_sound y ix g Hv (not_larry_ok _ Hok) Hj Hc Hg) as (ss & Hsa & Hp).
  destruct g as [z0|v|a]; [|done..]. case_decide as Hl; [|done]. apply bind_ok in H as (b & Hb & [= <-]).
  destruct Hp as (_ & _ & Hlz & _). exists ss. split; [done|]. split; [congruence|].
  destruct (selects_all_resolved y _ ss Hv (not_larry_ok _ Hok) Hsa) as (Hlen & rs & Hr & Hs).
  pose proof (resolved_kind _ _ _ Hr) as Hk.
  assert (Hll : length (list_lens rs) <= 1) by (eapply one_list_lens; [exact Hk|by apply pad_one_list]).
  assert (Hpl : list_lens rs <> [] -> placed rs).
  { intros Hne. destruct (list_lens rs) as [|n [|]] eqn:El; [done| |simpl in Hll; lia]. by eapply layout_placed. }
  unfold np_setitem in Hb. apply bind_ok in Hb as (q & Hq & Hb). change (shape (larr y)) with (lshape y) in Hq.
  rewrite <-(valid_shape y Hv) in Hq, Hr.
  destruct (select_core (llabel y) (index_items ix) rs ss) as (m & Hm & Hmap); [by rewrite valid_ndim|done..|].
  rewrite Hm in Hq. injection Hq as <-. simpl in Hb. eapply scatter_larry; [done|done|reflexivity|congruence|exact Hmap|exact Hb].
Qed.
Lemma setitem_larry_complete y ix z ss :
  valid y -> valid z -> Forall not_larry (index_items ix) -> one_list (index_items ix) ->
  joined (index_items ix) \/ list_first (index_items ix) -> complete y ix ->
  selects_all (llabel y) (index_items ix) ss -> llabel z = sel_labels ss ->
  (forall ls u, cell z ls = Some u -> exists w, store (ldtype y) u = Ok w) ->
  exists y', larry_setitem y ix (SLarry z) = Ok y'.
Proof.
  intros Hv Hz Hok H1 Hj Hc Hsa Hlz Hst.
  assert (HN : Forall NoDup (sel_labels ss)) by (rewrite <-Hlz; by apply valid_nodup).
  destruct (getitem_complete y ix ss Hv (not_larry_ok _ Hok) Hj H1 Hc Hsa HN) as (g & Hg & Hp).
  unfold larry_setitem. rewrite Hg. simpl.
  assert (Hne : sel_labels ss <> []) by (rewrite <-Hlz; by destruct Hz as (_ & ? & _)).
  destruct g as [z0|v|a]; [|by destruct Hp|done]. destruct Hp as (_ & _ & Hl0 & _). rewrite decide_True by congruence.
  destruct (selects_all_resolved y _ ss Hv (not_larry_ok _ Hok) Hsa) as (Hlen & rs & Hr & Hs).
  pose proof (resolved_kind _ _ _ Hr) as Hk.
  assert (Hll : length (list_lens rs) <= 1) by (eapply one_list_lens; [exact Hk|by apply pad_one_list]).
  assert (Hpl : list_lens rs <> [] -> placed rs).
  { intros Hn. destruct (list_lens rs) as [|n [|]] eqn:El; [done| |simpl in Hll; lia]. by eapply layout_placed. }
  unfold np_setitem. change (shape (larr y)) with (lshape y). rewrite <-(valid_shape y Hv) in *.
  destruct (select_core (llabel y) (index_items ix) rs ss) as (m & Hm & Hmap); [by rewrite valid_ndim|done..|].
  rewrite Hm. cbn [mbind res_bind fst snd].
  destruct (scatter_total m (fun idx => v ← of_opt ValueError (aget (larr z) idx); store (ldtype y) v) (indices (length <$> sel_labels ss)) (larr y)) as [b Hb].
  { intros idx Hidx. apply elem_of_indices in Hidx. destruct (labels_at_exists _ _ Hidx) as [ls Hls].
    destruct (Hmap _ _ Hls) as (p & full & Hp & _). split; [eauto|]. rewrite <-Hlz in Hls.
    destruct (valid_cell_at z idx ls Hz Hls) as (u & Hu & Hcu). destruct (Hst _ _ Hcu) as [w Hw]. exists w. rewrite Hu. exact Hw. }
  change (exists y', (b ← foldM (scatter_step m (fun idx => v ← of_opt ValueError (aget (larr z) idx); store (ldtype y) v)) (larr y) (indices (length <$> sel_labels ss)); Ok (Larry (Nda (ldtype y) b) (llabel y))) = Ok y').
  rewrite Hb. simpl. eauto.
Qed.

(** A larry that is not aligned is refused. *)
Lemma setitem_larry_misaligned y ix z z0 :
  larry_getitem y ix = Ok (GLar z0) -> llabel z0 <> llabel z -> larry_setitem y ix (SLarry z) = Err IndexError.
Proof. intros Hg Hn. unfold larry_setitem. rewrite Hg. simpl. by rewrite decide_False. Qed.

(** * A bool larry as index *)
Lemma setmask_spec y m v z :
  valid y -> valid m -> ldtype m = DBool -> larry_setmask y m v = Ok z ->
  llabel m = llabel y /\ exists u, store (ldtype y) v = Ok u /\
  valid z /\ ldtype z = ldtype y /\ llabel z = llabel y /\
  (forall ls, cell m ls = Some (VBool true) -> cell z ls = Some u) /\
  (forall ls, cell m ls <> Some (VBool true) -> cell z ls = cell y ls).
Proof.
  intros Hv Hm Hd H. unfold larry_setmask in H. case_decide as Hl; [|done]. rewrite Hd in H. simpl in H.
  apply bind_ok in H as (x & Hx & [= <-]). unfold putmask_scalar in Hx. apply bind_ok in Hx as (u & Hu & [= <-]).
  split; [done|]. exists u. split; [done|].
  set (mask := amap (fun v => match v with VBool b => b | _ => false end) (larr m)).
  set (b := azip (fun (k : bool) (c : val) => if k then u else c) mask (larr y)).
  assert (Hsh : shape mask = shape (larr y)).
  { change (lshape m = lshape y). by rewrite <-!valid_shape, Hl by done. }
  assert (Hmw : arr_wf mask) by (apply amap_wf, valid_wf; done).
  assert (Hwb : arr_wf b) by (apply azip_wf; [done|by apply valid_wf|done]).
  assert (Hcell : forall idx ls, labels_at (llabel y) idx ls -> exists c w k, cell y ls = Some c /\ cell m ls = Some (VBool k) /\
    aget b idx = Some w /\ w = if k then u else c).
  { intros idx ls Hla. destruct (valid_cell_at y idx ls Hv Hla) as (c & Hgc & Hcc).
    assert (Hla2 : labels_at (llabel m) idx ls) by (by rewrite <-Hl).
    destruct (valid_cell_at m idx ls Hm Hla2) as (k & Hgk & Hck).
    pose proof (valid_cell_typed m ls k Hm Hck) as Ht. rewrite Hd in Ht. destruct k as [| |k| | |]; try done.
    exists c, (if k then u else c), k. split_and!; try done. unfold b. rewrite get_azip by done. unfold mask. rewrite get_amap, Hgk. simpl.
    by rewrite Hgc. }
  assert (Hvz : valid (Larry (Nda (ldtype y) b) (llabel y))).
  { apply valid_of_array; [done|exact Hsh|done|]. intros idx w Hg.
    apply get_in_range in Hg as Hr. change (shape b) with (shape mask) in Hr. rewrite Hsh in Hr. change (shape (larr y)) with (lshape y) in Hr.
    rewrite <-(valid_shape y Hv) in Hr. destruct (labels_at_exists _ _ Hr) as [ls Hls].
    destruct (Hcell _ _ Hls) as (c & w' & k & Hc & Hk & Hg' & ->). assert (w = if k then u else c) as -> by congruence.
    destruct k; [by eapply store_typed|by eapply valid_cell_typed]. }
  match goal with |- context [Larry ?q _] => change q with (Nda (ldtype y) b) end.
  split_and!; [exact Hvz|done|done| |].
  - intros ls Hls. assert (Hg : in_grid (llabel m) ls) by (apply (valid_cell_grid m ls Hm); eauto).
    rewrite <-Hl in Hg. apply in_grid_labels_at in Hg as [idx Hla]. destruct (Hcell _ _ Hla) as (c & w & k & Hc & Hk & Hg' & ->).
    assert (k = true) as -> by congruence. by rewrite (set_cell y b idx ls Hv Hla).
  - intros ls Hls. destruct (decide (in_grid (llabel y) ls)) as [Hg|Hg].
    + apply in_grid_labels_at in Hg as [idx Hla]. destruct (Hcell _ _ Hla) as (c & w & k & Hc & Hk & Hg' & ->).
      destruct k; [done|]. rewrite (set_cell y b idx ls Hv Hla). congruence.
    + rewrite (proj2 (cell_None_grid y ls Hv) Hg). by apply cell_None_grid.
Qed.
Lemma setmask_complete y m v u :
  llabel m = llabel y -> ldtype m = DBool -> store (ldtype y) v = Ok u -> exists z, larry_setmask y m v = Ok z.
Proof.
  intros Hl Hd Hu. unfold larry_setmask. rewrite decide_True by done. rewrite Hd. simpl. unfold putmask_scalar.
  change (nd_dtype (lx y)) with (ldtype y). rewrite Hu. simpl. eauto.
Qed.
Lemma setmask_misaligned y m v : llabel y <> llabel m -> larry_setmask y m v = Err IndexError.
Proof. intros H. unfold larry_setmask. by rewrite decide_False. Qed.
