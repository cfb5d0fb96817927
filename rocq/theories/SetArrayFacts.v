(** Lemmas on assigning arrays. *)
From Verif Require Export SetArray IndexLix OpsFacts FarrayFacts SpecSetArray.

(** The value for the position [idx]. *)
Definition array_elem (dt : dtype) (x : nda) (idx : list nat) : res val :=
  v ← of_opt IndexError (aget (nd_arr x) (bindex (nd_shape x) idx)); store dt v.
Lemma array_elem_ok dt x idx w : length (nd_shape x) <= length idx -> array_elem dt x idx = Ok w ->
  exists idx' u, broadcast_index (nd_shape x) idx idx' /\ aget (nd_arr x) idx' = Some u /\ store dt u = Ok w.
Proof.
  intros Hl H. apply bind_ok in H as (u & Hu%of_opt_ok & H). exists (bindex (nd_shape x) idx), u. split; [by apply bindex_spec|done].
Qed.
Lemma array_elem_ex dt x sh idx : nda_wf x -> fits (nd_shape x) sh -> in_range sh idx ->
  storable dt x -> exists w, array_elem dt x idx = Ok w.
Proof.
  intros [Hw _] Hf Hi Hst. pose proof (bindex_in_range _ _ _ Hf Hi) as Hr. destruct (proj2 (get_is_Some (nd_arr x) (bindex (nd_shape x) idx) Hw) Hr) as [u Hu].
  unfold array_elem. rewrite Hu. simpl. by apply Hst in Hu.
Qed.

Lemma assign_array_ok y sh m x z : assign_array y sh m x = Ok z ->
  fits (nd_shape x) sh /\ exists b, foldM (scatter_step m (array_elem (ldtype y) x)) (larr y) (indices sh) = Ok b /\ z = Larry (Nda (ldtype y) b) (llabel y).
Proof.
  unfold assign_array. destruct (decide (length sh < _)); [by destruct (forallb _ _)|]. case_decide as Hb; [|done]. apply fits_bshape in Hb.
  intros H. apply bind_ok in H as (b & H & [= <-]). split; [done|]. by exists b.
Qed.
Lemma assign_array_ex y sh m x : nda_wf x -> fits (nd_shape x) sh ->
  (forall idx, in_range sh idx -> is_Some (m idx)) ->
  storable (ldtype y) x -> exists z, assign_array y sh m x = Ok z.
Proof.
  intros Hx Hf Hm Hst. unfold assign_array. rewrite decide_False by (destruct Hf; lia). rewrite decide_True by (by apply fits_bshape).
  destruct (scatter_total m (array_elem (ldtype y) x) (indices sh) (larr y)) as [b Hb].
  { intros idx Hidx. apply elem_of_indices in Hidx. split; [by apply Hm|]. by eapply array_elem_ex. }
  change (exists z, (b ← foldM (scatter_step m (array_elem (ldtype y) x)) (larr y) (indices sh); Ok (Larry (Nda (ldtype y) b) (llabel y))) = Ok z).
  rewrite Hb. by eexists.
Qed.
Lemma assign_array_misfit y sh m x : length (nd_shape x) <= length sh -> ~ fits (nd_shape x) sh -> assign_array y sh m x = Err ValueError.
Proof. intros Hl Hf. unfold assign_array. rewrite decide_False by lia. rewrite decide_False; [done|]. by intros Hb%fits_bshape. Qed.
Lemma assign_array_longer y sh m x k n : length sh < length (nd_shape x) -> k < length (nd_shape x) - length sh -> nd_shape x !! k = Some n -> n <> 1 ->
  assign_array y sh m x = Err ValueError.
Proof.
  intros Hl Hk Hn H1. unfold assign_array. rewrite decide_True by lia. assert (forallb (fun n => bool_decide (n = 1)) (take (length (nd_shape x) - length sh) (nd_shape x)) = false) as ->; [|done].
  apply not_true_iff_false. intros Ht. apply Is_true_true, forallb_True in Ht.
  rewrite Forall_forall in Ht. assert (n ∈ take (length (nd_shape x) - length sh) (nd_shape x)) as Hin; [|by apply Ht, bool_decide_unpack in Hin]. apply elem_of_list_lookup. exists k. by rewrite lookup_take by lia.
Qed.

(** Any values. *)
Lemma scatter_by y ss m (f : list nat -> res val) (R : list lab -> val -> Prop) b :
  valid y -> Forall NoDup (sel_labels ss) ->
  (forall idx ls, labels_at (sel_labels ss) idx ls ->
     exists idx0 full, m idx = Some idx0 /\ sel_full ss ls = Some full /\ labels_at (llabel y) idx0 full) ->
  (forall idx u, f idx = Ok u -> has_dtype (ldtype y) u = true) ->
  (forall idx ls u, labels_at (sel_labels ss) idx ls -> f idx = Ok u -> R ls u) ->
  foldM (scatter_step m f) (larr y) (indices (length <$> sel_labels ss)) = Ok b ->
  overwritten y ss R (Larry (Nda (ldtype y) b) (llabel y)).
Proof.
  intros Hv HNz Hmap Hty HR H.
  assert (Hlab : forall idx, idx ∈ indices (length <$> sel_labels ss) -> exists ls, labels_at (sel_labels ss) idx ls).
  { intros idx Hidx. apply elem_of_indices in Hidx. by apply labels_at_exists. }
  assert (Hrange : forall idx p, idx ∈ indices (length <$> sel_labels ss) -> m idx = Some p -> in_range (shape (larr y)) p).
  { intros idx p Hidx Hp. destruct (Hlab idx Hidx) as [ls Hls]. destruct (Hmap _ _ Hls) as (p' & full & Hp' & _ & Hla).
    assert (p' = p) as -> by congruence. change (shape (larr y)) with (lshape y). rewrite <-valid_shape by done. by eapply labels_at_in_range. }
  assert (Hcons : forall i1 i2 p, i1 ∈ indices (length <$> sel_labels ss) -> i2 ∈ indices (length <$> sel_labels ss) ->
    m i1 = Some p -> m i2 = Some p -> f i1 = f i2).
  { intros i1 i2 p Hi1 Hi2 Hp1 Hp2. destruct (Hlab i1 Hi1) as [ls1 Hl1]. destruct (Hlab i2 Hi2) as [ls2 Hl2].
    destruct (Hmap _ _ Hl1) as (p1 & f1 & E1 & Hf1 & Ha1). destruct (Hmap _ _ Hl2) as (p2 & f2 & E2 & Hf2 & Ha2).
    assert (p1 = p) as -> by congruence. assert (p2 = p) as -> by congruence.
    assert (f2 = f1) as -> by (by eapply labels_at_fun). assert (ls1 = ls2) as -> by (by eapply sel_full_inj).
    f_equal. apply locate_Some in Hl1, Hl2; [|done..]. congruence. }
  destruct (scatter_spec m f _ (larr y) b (valid_wf y Hv) Hrange Hcons H) as (Hsb & Hwb & Hin & Hout).
  assert (Hvz : valid (Larry (Nda (ldtype y) b) (llabel y))).
  { apply valid_of_array; [done|done|done|]. intros p v Hg.
    destruct (decide (Exists (fun idx => m idx = Some p) (indices (length <$> sel_labels ss)))) as [He|He].
    - apply Exists_exists in He as (idx & Hidx & Hm). destruct (Hin idx Hidx) as (p2 & u2 & E1 & E2 & E3).
      assert (u2 = v) as -> by congruence. by eapply Hty.
    - rewrite Hout in Hg by (intros idx Hidx Hm; apply He, Exists_exists; eauto).
      eapply (nda_wf_typed (lx y)); [by destruct Hv|exact Hg]. }
  split_and!; [done|done|done| |].
  - intros ls full Hls Hf. apply in_grid_labels_at in Hls as [idx Hl]. destruct (Hmap _ _ Hl) as (p & full' & Hp & Hf' & Hla).
    assert (full' = full) as -> by congruence.
    assert (Hidx : idx ∈ indices (length <$> sel_labels ss)) by (apply elem_of_indices; by eapply labels_at_in_range).
    destruct (Hin idx Hidx) as (p2 & u2 & E1 & E2 & E3). assert (p2 = p) as -> by congruence.
    exists u2. split; [by rewrite (set_cell y b p full Hv Hla)|]. by eapply HR.
  - intros full Hno. destruct (decide (in_grid (llabel y) full)) as [Hg|Hg].
    + apply in_grid_labels_at in Hg as [p Hla]. rewrite (set_cell y b p full Hv Hla), Hout.
      * symmetry. apply cell_at; [by apply valid_nodup|done].
      * intros idx Hidx Hm. destruct (Hlab idx Hidx) as [ls Hl]. destruct (Hmap _ _ Hl) as (p' & full' & Hp' & Hf' & Hla').
        assert (p' = p) as -> by congruence. assert (full' = full) as -> by (by eapply labels_at_fun).
        apply (Hno ls); [|done]. apply in_grid_labels_at. eauto.
    + rewrite (proj2 (cell_None_grid y full Hv) Hg). by apply cell_None_grid.
Qed.

Lemma assign_overwrites y ss m x z :
  valid y -> Forall NoDup (sel_labels ss) ->
  (forall idx ls, labels_at (sel_labels ss) idx ls ->
     exists idx0 full, m idx = Some idx0 /\ sel_full ss ls = Some full /\ labels_at (llabel y) idx0 full) ->
  assign_array y (length <$> sel_labels ss) m x = Ok z ->
  fits (nd_shape x) (length <$> sel_labels ss) /\ overwritten y ss (array_value (ldtype y) x (sel_labels ss)) z.
Proof.
  intros Hv HN Hm H. apply assign_array_ok in H as (Hf & b & Hb & ->). split; [done|].
  eapply scatter_by; [done|done|exact Hm| | |exact Hb].
  - intros idx u Hu. apply bind_ok in Hu as (v & _ & Hu). by eapply store_typed.
  - intros idx ls u Hl Hu. apply array_elem_ok in Hu as (idx' & v & H1 & H2 & H3).
    + by exists idx, idx', v.
    + destruct Hf as [Hle _]. rewrite fmap_length in Hle. destruct (Forall3_lengths _ _ _ _ Hl). lia.
Qed.

(** What an index selects, in numpy and in labels. *)
Lemma select_labels y ix :
  valid y -> Forall not_larry (index_items ix) -> one_list (index_items ix) -> joined (index_items ix) \/ list_first (index_items ix) ->
  forall ss, selects_all (llabel y) (index_items ix) ss ->
  exists m, np_select (lshape y) (index_items ix) = Ok (length <$> sel_labels ss, m) /\
    forall idx ls, labels_at (sel_labels ss) idx ls ->
      exists idx0 full, m idx = Some idx0 /\ sel_full ss ls = Some full /\ labels_at (llabel y) idx0 full.
Proof.
  intros Hv Hok H1 Hj ss Hsa.
  destruct (selects_all_resolved y _ ss Hv (not_larry_ok _ Hok) Hsa) as (Hlen & rs & Hr & Hs).
  pose proof (resolved_kind _ _ _ Hr) as Hk.
  assert (Hll : length (list_lens rs) <= 1) by (eapply one_list_lens; [exact Hk|by apply pad_one_list]).
  assert (Hpl : list_lens rs <> [] -> placed rs).
  { intros Hne. destruct (list_lens rs) as [|n [|]] eqn:El; [done| |simpl in Hll; lia]. by eapply layout_placed. }
  rewrite <-(valid_shape y Hv) in *. apply (select_core (llabel y) (index_items ix) rs ss); try done. by rewrite valid_ndim.
Qed.
Lemma setarray_sound y ix x z :
  valid y -> Forall not_larry (index_items ix) -> one_list (index_items ix) -> joined (index_items ix) \/ list_first (index_items ix) ->
  larry_setarray y ix x = Ok z ->
  exists ss, selects_all (llabel y) (index_items ix) ss /\ fits (nd_shape x) (length <$> sel_labels ss) /\
    (Forall NoDup (sel_labels ss) -> overwritten y ss (array_value (ldtype y) x (sel_labels ss)) z).
Proof.
  intros Hv Hok H1 Hj H. unfold larry_setarray in H. apply bind_ok in H as (q & Hq & H).
  pose proof Hq as Hq'. apply np_select_inv in Hq' as (Hlen & rs & Hr & _). change (length (lshape y)) with (lndim y) in Hlen.
  destruct (resolved_selects_all y _ rs Hv Hok Hlen Hr) as (ss & Hsa & _). exists ss. split; [done|].
  destruct (select_labels y ix Hv Hok H1 Hj ss Hsa) as (m & Hm & Hmap). rewrite Hm in Hq. injection Hq as <-. cbn [fst snd] in H.
  split; [by apply assign_array_ok in H as [? _]|]. intros HN. by apply (assign_overwrites _ _ m).
Qed.
Lemma setarray_complete y ix x ss :
  valid y -> nda_wf x -> Forall not_larry (index_items ix) -> one_list (index_items ix) -> joined (index_items ix) \/ list_first (index_items ix) ->
  selects_all (llabel y) (index_items ix) ss -> length (nd_shape x) <= length (sel_labels ss) ->
  storable (ldtype y) x ->
  (fits (nd_shape x) (length <$> sel_labels ss) -> exists z, larry_setarray y ix x = Ok z) /\
  (~ fits (nd_shape x) (length <$> sel_labels ss) -> larry_setarray y ix x = Err ValueError).
Proof.
  intros Hv Hx Hok H1 Hj Hsa Hlen Hst. destruct (select_labels y ix Hv Hok H1 Hj ss Hsa) as (m & Hm & Hmap).
  unfold larry_setarray. rewrite Hm. cbn [mbind res_bind fst snd]. split.
  - intros Hf. apply assign_array_ex; try done. intros idx Hi. apply labels_at_exists in Hi as [ls Hl]. destruct (Hmap _ _ Hl) as (p & _ & -> & _). by eexists.
  - intros Hf. apply assign_array_misfit; [by rewrite fmap_length|done].
Qed.

(** * A bool larry as index *)
Lemma true_indices_marked m : valid m -> Forall2 (labels_at (llabel m)) (true_indices m) (marked m).
Proof.
  intros Hm. unfold true_indices, marked. pose proof (grid_indices (llabel m)) as H. rewrite (valid_shape m Hm) in H.
  induction H as [|idx ls l1 l2 Hl H IH]; [constructor|].
  rewrite !filter_cons. pose proof (cell_at m idx ls (valid_nodup m Hm) Hl) as Hc.
  destruct (decide (aget (larr m) idx = Some (VBool true))) as [E|E].
  - rewrite decide_True by congruence. by constructor.
  - rewrite decide_False by congruence. done.
Qed.
Lemma true_indices_nodup m : NoDup (true_indices m).
Proof. apply NoDup_filter, NoDup_indices. Qed.
Lemma setmask_array_sound y m x z : valid y -> valid m -> ldtype m = DBool -> larry_setmask_array y m x = Ok z ->
  llabel m = llabel y /\ fits (nd_shape x) [length (marked m)] /\ valid z /\ ldtype z = ldtype y /\ llabel z = llabel y /\
  (forall k ls, marked m !! k = Some ls -> exists idx' u w, broadcast_index (nd_shape x) [k] idx' /\ aget (nd_arr x) idx' = Some u /\
     store (ldtype y) u = Ok w /\ cell z ls = Some w) /\
  (forall ls, cell m ls <> Some (VBool true) -> cell z ls = cell y ls).
Proof.
  intros Hv Hm Hd H. unfold larry_setmask_array in H. destruct (decide (llabel y = llabel m)) as [Hl|]; [|done]. rewrite decide_True in H by done.
  pose proof (true_indices_marked m Hm) as Hmk. pose proof (Forall2_length _ _ _ Hmk) as Hlen.
  apply assign_array_ok in H as (Hf & b & Hb & ->). rewrite Hlen in Hf, Hb.
  set (pos := fun idx : list nat => k ← idx !! 0; true_indices m !! k) in *.
  assert (forall idx p, idx ∈ indices [length (marked m)] -> pos idx = Some p -> exists k ls, idx = [k] /\ true_indices m !! k = Some p /\ marked m !! k = Some ls /\ labels_at (llabel m) p ls) as Hpos.
  { intros idx p Hi Hp. apply elem_of_indices in Hi. inversion Hi as [|k ? ? ? Hk Hi2]; subst. inversion Hi2; subst. unfold pos in Hp. simpl in Hp.
    destruct (Forall2_lookup_l _ _ _ _ _ Hmk Hp) as (ls & Hls & Hla). by exists k, ls. }
  destruct (scatter_spec pos (array_elem (ldtype y) x) (indices [length (marked m)]) (larr y) b (valid_wf y Hv)) as (Hsb & Hwb & Hin & Hout); [| |done|].
  { intros idx p Hi Hp. destruct (Hpos idx p Hi Hp) as (k & ls & -> & _ & _ & Hla). change (shape (larr y)) with (lshape y).
    rewrite <-(valid_shape y Hv), Hl. by eapply labels_at_in_range. }
  { intros i1 i2 p Hi1 Hi2 Hp1 Hp2. destruct (Hpos i1 p Hi1 Hp1) as (k1 & ls1 & -> & E1 & _). destruct (Hpos i2 p Hi2 Hp2) as (k2 & ls2 & -> & E2 & _).
    by rewrite (NoDup_lookup _ _ _ _ (true_indices_nodup m) E1 E2). }
  assert (Hty : forall idx u, array_elem (ldtype y) x idx = Ok u -> has_dtype (ldtype y) u = true).
  { intros idx u Hu. apply bind_ok in Hu as (v & _ & Hu). by eapply store_typed. }
  assert (Hvz : valid (Larry (Nda (ldtype y) b) (llabel y))).
  { apply valid_of_array; [done|done|done|]. intros p v Hg.
    destruct (decide (Exists (fun idx => pos idx = Some p) (indices [length (marked m)]))) as [He|He].
    - apply Exists_exists in He as (idx & Hidx & Hp). destruct (Hin idx Hidx) as (p2 & u2 & E1 & E2 & E3).
      assert (u2 = v) as -> by congruence. by eapply Hty.
    - rewrite Hout in Hg by (intros idx Hidx Hp; apply He, Exists_exists; eauto).
      eapply (nda_wf_typed (lx y)); [by destruct Hv|exact Hg]. }
  split_and!; try done.
  - intros k ls Hk. assert (Hkl : [k] ∈ indices [length (marked m)]).
    { apply elem_of_indices. repeat constructor. by eapply lookup_lt_Some. }
    destruct (Hin [k] Hkl) as (p & w & Hp & Hw & Hg). destruct (Hpos [k] p Hkl Hp) as (k' & ls' & [= <-] & _ & Hk' & Hla).
    assert (ls' = ls) as -> by congruence. apply array_elem_ok in Hw as (idx' & u & H1 & H2 & H3); [|destruct Hf; simpl in *; lia].
    exists idx', u, w. split_and!; try done. rewrite <-Hl in Hla. by rewrite (set_cell y b p ls Hv Hla).
  - intros ls Hno. destruct (decide (in_grid (llabel y) ls)) as [Hg|Hg].
    + apply in_grid_labels_at in Hg as [p Hla]. rewrite (set_cell y b p ls Hv Hla), Hout.
      * symmetry. apply cell_at; [by apply valid_nodup|done].
      * intros idx Hidx Hp. destruct (Hpos idx p Hidx Hp) as (k & ls' & -> & _ & Hk & Hla'). rewrite Hl in Hla.
        assert (ls' = ls) as -> by (by eapply labels_at_fun). apply elem_of_list_lookup_2 in Hk. by apply elem_of_list_filter in Hk as [? _].
    + rewrite (proj2 (cell_None_grid y ls Hv) Hg). by apply cell_None_grid.
Qed.
Lemma setmask_array_complete y m x : valid y -> valid m -> nda_wf x -> ldtype m = DBool -> llabel m = llabel y -> length (nd_shape x) <= 1 ->
  storable (ldtype y) x ->
  (fits (nd_shape x) [length (marked m)] -> exists z, larry_setmask_array y m x = Ok z) /\
  (~ fits (nd_shape x) [length (marked m)] -> larry_setmask_array y m x = Err ValueError).
Proof.
  intros Hv Hm Hx Hd Hl Hn Hst. unfold larry_setmask_array. rewrite decide_True by done. rewrite decide_True by done. cbn zeta.
  pose proof (Forall2_length _ _ _ (true_indices_marked m Hm)) as Hlen. rewrite <-Hlen. split.
  - intros Hf. apply assign_array_ex; try done. intros idx Hi. inversion Hi as [|k ? ? ? Hk Hi2]; subst. inversion Hi2; subst. simpl. by apply lookup_lt_is_Some_2.
  - intros Hf. by apply assign_array_misfit.
Qed.
Lemma setmask_array_misaligned y m x : llabel y <> llabel m -> larry_setmask_array y m x = Err IndexError.
Proof. intros H. unfold larry_setmask_array. by rewrite decide_False. Qed.

(** * Label indexing *)
Lemma lix_setarray_sub y ix x : first_only ix -> ~ 0 ∈ lshape y -> lix_setarray y ix x = (s ← lix_sub y ix; larry_setarray y s x).
Proof.
  intros Hf H0. unfold lix_setarray. rewrite decide_False; [|intros E; apply H0; rewrite E; left].
  rewrite decide_False by done. destruct ix as [z|ls|s|items]; cbn [lix_sub]; try done.
  - destruct (axis_label y 0) as [l|e]; cbn [mbind res_bind]; [|done]. destruct (labels2indices l ls) as [ps|e]; cbn [mbind res_bind]; [|done].
    destruct ps as [|p [|p2 ps]]; done.
  - destruct (slicemaker y 0 s); done.
Qed.
Lemma lix_setarray_sound y ix x z :
  valid y -> ~ 0 ∈ lshape y -> lix_setarray y ix x = Ok z ->
  exists block, lix_block y ix block /\ fits (nd_shape x) (length <$> sel_labels (lix_value_sel ix block)) /\
    (Forall NoDup block -> overwritten y (lix_value_sel ix block) (array_value (ldtype y) x (sel_labels (lix_value_sel ix block))) z).
Proof.
  intros Hv H0 H. destruct ix as [i|ls|sl|items].
  4:{ unfold lix_setarray in H. rewrite decide_False in H by (by apply lix_nonempty). rewrite decide_False in H by done.
    apply bind_ok in H as (q & Hq & H). apply bind_ok in H as (pss & Hp & H).
    destruct (lix_items_sound y items q pss Hv Hq Hp) as (block & Hall & Hbl & _). exists block. cbn [lix_value_sel].
    rewrite (blocks_length _ _ _ Hbl) in H. rewrite sel_labels_among. split; [done|]. split; [by apply assign_array_ok in H as [? _]|].
    intros HN. assert (Ho := assign_overwrites y (Among <$> block) (lookup_all pss) x z Hv). rewrite !sel_labels_among in Ho. apply Ho; [done| |done].
    intros idx ls Hls. destruct (blocks_map _ _ _ _ _ Hbl Hls) as (p & Hp' & Hla). exists p, ls.
    split_and!; [done| |done]. apply sel_full_among. symmetry. by destruct (Forall3_lengths _ _ _ _ Hls); congruence. }
  all: rewrite lix_setarray_sub in H by done; apply bind_ok in H as (sub & Hsub & H);
    destruct (label_cons y Hv) as (l & L & Hl);
    destruct (lix_sub_sound y l L _ sub Hv Hl Hsub) as (it & Hit & Hnl & Hnt & Hsel);
    destruct (setarray_sound y sub x z Hv) as (ss & Hss & Hf & Hp);
    [rewrite Hit; by constructor|rewrite Hit; apply single_one_list|rewrite Hit; apply single_joined|done|];
    rewrite Hit, Hl in Hss; apply selects_single_inv in Hss as (s & -> & Hs);
    destruct (Hsel s Hs) as (l' & Hl' & Hls); exists (l' :: L); cbn [lix_value_sel]; erewrite (sel_first _ l' L s) by done; (split_and!;
    [unfold lix_block; rewrite Hl, first_parts by done; apply lix_all_single; eauto|done|]).
  all: intros HN; apply Hp; apply Forall_cons in HN as [HN1 HN2]; simpl in Hls; injection Hls as <-; unfold sel_labels in *; simpl;
    try (destruct l' as [|x1 [|x2 l']]; simpl); rewrite ?list_omap_fmap; try constructor; try done; change (Forall NoDup (sel_labels (Among <$> L))); by rewrite sel_labels_among.
Qed.
Lemma lix_setarray_complete y ix x block :
  valid y -> nda_wf x -> ~ 0 ∈ lshape y -> lix_block y ix block ->
  (match ix with LxTuple _ => Forall (fun l => l <> []) block | _ => True end) ->
  length (nd_shape x) <= length (sel_labels (lix_value_sel ix block)) ->
  storable (ldtype y) x ->
  (fits (nd_shape x) (length <$> sel_labels (lix_value_sel ix block)) -> exists z, lix_setarray y ix x = Ok z) /\
  (~ fits (nd_shape x) (length <$> sel_labels (lix_value_sel ix block)) -> lix_setarray y ix x = Err ValueError).
Proof.
  intros Hv Hx H0 Hb Hne Hlen Hst. destruct ix as [i|ls|sl|items].
  4:{ cbn [lix_value_sel] in *. rewrite sel_labels_among in *.
    unfold lix_setarray. rewrite decide_False by (by apply lix_nonempty). rewrite decide_False by done.
    destruct (lix_items_complete y items block Hv Hb Hne) as (q & pss & Hq & Hp & Hbl). rewrite Hq. cbn [mbind res_bind].
    rewrite Hp. cbn [mbind res_bind]. rewrite (blocks_length _ _ _ Hbl). split.
    - intros Hf. apply assign_array_ex; try done. intros idx Hi. apply labels_at_exists in Hi as [ls Hls].
      destruct (blocks_map _ _ _ _ _ Hbl Hls) as (p & -> & _). by eexists.
    - intros Hf. apply assign_array_misfit; [by rewrite fmap_length|done]. }
  all: destruct (label_cons y Hv) as (l & L & Hl); unfold lix_block in Hb; rewrite Hl, first_parts in Hb by done;
    apply lix_all_single in Hb as (l' & -> & Hl');
    match goal with |- context [lix_setarray _ ?q] => destruct (lix_sub_complete y l L q l' Hv Hl I Hl') as (sub & it & s & Hsub & Hit & Hnl & Hnt & Hls & Hs) end;
    rewrite lix_setarray_sub by done; rewrite Hsub; cbn [mbind res_bind]; cbn [lix_value_sel] in *; erewrite (sel_first _ l' L s) in * by done;
    eapply (setarray_complete y sub); [done|done|rewrite Hit; by constructor|rewrite Hit; apply single_one_list|rewrite Hit; apply single_joined
     |rewrite Hit, Hl; by apply selects_single|done|done].
Qed.

(** * Refusals *)
Lemma setarray_longer y ix x ss k n :
  valid y -> Forall not_larry (index_items ix) -> one_list (index_items ix) -> joined (index_items ix) \/ list_first (index_items ix) ->
  selects_all (llabel y) (index_items ix) ss -> k < length (nd_shape x) - length (sel_labels ss) -> nd_shape x !! k = Some n -> n <> 1 ->
  larry_setarray y ix x = Err ValueError.
Proof.
  intros Hv Hok H1 Hj Hsa Hk Hn Hn1. destruct (select_labels y ix Hv Hok H1 Hj ss Hsa) as (m & Hm & _).
  unfold larry_setarray. rewrite Hm. cbn [mbind res_bind fst snd]. eapply assign_array_longer; [| |done|done]; rewrite fmap_length; lia.
Qed.
Lemma resolve_error n it e : (forall s, it = ISlice s -> s_step s <> Some 0%Z) -> resolve n it = Err e -> e = IndexError.
Proof.
  intros Hs. destruct it as [z|s|l|l|m]; simpl.
  - destruct (py_index n z); simpl; congruence.
  - specialize (Hs s eq_refl). unfold slice_positions. rewrite decide_False by (destruct (s_step s) as [k|]; simpl; congruence). done.
  - destruct (mapM (py_index n) l); simpl; congruence.
  - case_decide; simpl; congruence.
  - case_decide; simpl; congruence.
Qed.
Lemma setarray_nowhere y ix x : valid y -> Forall not_larry (index_items ix) -> one_list (index_items ix) ->
  Forall (fun it => forall s, it = ISlice s -> s_step s <> Some 0%Z) (index_items ix) ->
  (forall ss, ~ selects_all (llabel y) (index_items ix) ss) -> larry_setarray y ix x = Err IndexError.
Proof.
  intros Hv Hok H1 Hst Hno. unfold larry_setarray, np_select. change (length (lshape y)) with (lndim y). case_decide as Hl; [done|].
  change (index_items ix ++ replicate (lndim y - length (index_items ix)) (ISlice slice_all)) with (pad (lndim y) (index_items ix)).
  destruct (mapR _ _) as [rs|e] eqn:E.
  - exfalso. destruct (resolved_selects_all y (index_items ix) rs Hv Hok) as (ss & Hs & _); [lia| |by eapply Hno].
    apply mapR_zip_Forall3 in E; [exact E|]. rewrite pad_length; [done|unfold lndim in *; lia].
  - simpl. f_equal. eapply mapR_err_all; [|exact E]. intros [n it] e' Hin He. eapply resolve_error; [|exact He]. simpl.
    apply elem_of_zip_r in Hin. unfold pad in Hin. apply elem_of_app in Hin as [Hin|Hin].
    + rewrite Forall_forall in Hst. by apply Hst.
    + apply elem_of_replicate in Hin as [-> _]. by intros s [= <-].
Qed.
