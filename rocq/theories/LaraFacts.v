(** Archived larrys. *)
From Verif Require Export SpecLara Lara IndexSet ArchiveFacts.

(** * h5py's selections *)

Lemma rising_iff (ps : list nat) :
  forallb (fun p : nat * nat => bool_decide (p.1 < p.2)) (zip ps (tail ps)) = true <->
  forall i j a b, i < j -> ps !! i = Some a -> ps !! j = Some b -> a < b.
Proof.
  induction ps as [|p ps IH]; [done|]. destruct ps as [|q ps].
  { split; [|done]. intros _ i j a b Hij Ha Hb. destruct j as [|j]; [lia|]. done. }
  change (zip (p :: q :: ps) (tail (p :: q :: ps))) with ((p, q) :: zip (q :: ps) (tail (q :: ps))). cbn [forallb fst snd].
  rewrite andb_true_iff, IH, bool_decide_eq_true. split.
  - intros [Hpq H] i j a b Hij Ha Hb. destruct j as [|j]; [lia|]. destruct i as [|i].
    + injection Ha as <-. destruct j as [|j]; [by injection Hb as <-|].
      pose proof (H 0 (S j) q b ltac:(lia) eq_refl Hb). lia.
    + eapply (H i j); [lia|done|done].
  - intros H. split; [apply (H 0 1 p q); [lia|done|done]|]. intros i j a b Hij Ha Hb. by apply (H (S i) (S j) a b ltac:(lia)).
Qed.
Lemma rising_nodup (ps : list nat) :
  (forall i j a b, i < j -> ps !! i = Some a -> ps !! j = Some b -> a < b) -> NoDup ps.
Proof.
  intros H. apply NoDup_alt. intros i j x Hi Hj. destruct (Nat.lt_trichotomy i j) as [Hl|[->|Hl]]; [|done|].
  - pose proof (H _ _ _ _ Hl Hi Hj). lia.
  - pose proof (H _ _ _ _ Hl Hj Hi). lia.
Qed.
Lemma true_from_rising bs : forall n i j a b, i < j -> true_from n bs !! i = Some a -> true_from n bs !! j = Some b -> a < b.
Proof.
  induction bs as [|[] bs IH]; intros n i j a b Hij Ha Hb; simpl in *; [done| |by eapply IH].
  destruct j as [|j]; [lia|]. destruct i as [|i]; simpl in *.
  - injection Ha as <-. apply elem_of_list_lookup_2, true_from_lt in Hb. lia.
  - eapply IH; [|exact Ha|exact Hb]. lia.
Qed.
Lemma h5_list_ok n ps r :
  h5_list n ps = Ok r <->
  ps <> [] /\ (forall i j a b, i < j -> ps !! i = Some a -> ps !! j = Some b -> a < b) /\ Forall (fun p => p < n) ps /\ r = RList ps.
Proof.
  unfold h5_list. destruct (decide (ps = [])) as [->|Hne]; [split; [done|by intros [? _]]|].
  rewrite <-rising_iff. destruct (forallb _ _); [|split; [done|by intros (_ & ? & _)]].
  destruct (decide _); split; try done.
  - by intros [= <-].
  - by intros (_ & _ & _ & ->).
  - by intros (_ & _ & ? & _).
Qed.

Lemma rising_nat zs ps n : mapM (py_index n) zs = Some ps -> Forall (fun z => (0 <= z)%Z) zs -> ps = Z.to_nat <$> zs.
Proof.
  intros H Hz. apply mapM_Some in H. revert Hz. induction H as [|z p zs ps Hp H IH]; intros Hz; [done|].
  apply Forall_cons in Hz as [Hz1 Hz]. apply py_index_Some in Hp as [Hlt Hp]. rewrite fmap_cons. f_equal; [lia|auto].
Qed.
Lemma nat_index zs n : Forall (fun z => (0 <= z)%Z) zs -> Forall (fun p => p < n) (Z.to_nat <$> zs) -> mapM (py_index n) zs = Some (Z.to_nat <$> zs).
Proof.
  induction 1 as [|z zs Hz H IH]; intros Hlt; [done|]. rewrite fmap_cons in *. apply Forall_cons in Hlt as [H1 Hlt].
  apply mapM_Some. constructor; [apply py_index_Some; lia|]. apply mapM_Some. auto.
Qed.

(** h5py resolves an entry as numpy does, if it accepts it. *)
Lemma h5_resolve_iff n it r :
  h5_resolve n it = Ok r <-> resolve n it = Ok r /\ forward it /\ r_len r <> Some 0.
Proof.
  destruct it as [z|s|zs|bs|m]; cbn [h5_resolve resolve forward].
  - destruct (py_index n z) as [p|]; simpl; [|naive_solver]. split; [|naive_solver]. intros [= <-]. done.
  - destruct (decide (default 1%Z (s_step s) < 1)%Z) as [Hs|Hs]; [split; [done|intros (_ & ? & _); lia]|].
    destruct (slice_positions s n) as [ps|e]; simpl; [|naive_solver].
    destruct (decide (ps = [])) as [->|Hne].
    + split; [done|]. intros ([= <-] & _ & H). done.
    + split; [|by intros ([= <-] & _)]. intros [= <-]. split; [done|]. split; [lia|]. simpl. intros [= H]. by destruct ps.
  - destruct (decide (Forall (fun z => (0 <= z)%Z) zs)) as [Hz|Hz].
    + rewrite h5_list_ok. split.
      * intros (Hne & Hr & Hlt & ->). rewrite (nat_index zs n Hz Hlt). split; [done|]. split.
        -- split; [by apply Forall_forall|]. intros i j a b Hij Ha Hb.
           assert (Z.to_nat a < Z.to_nat b) by (apply (Hr i j); [done|by rewrite list_lookup_fmap, Ha|by rewrite list_lookup_fmap, Hb]). lia.
        -- simpl. rewrite fmap_length. intros [= H]. destruct zs; [done|]. done.
      * intros (H & [_ Hr] & Hl). apply bind_ok in H as (ps & Hps & [= <-]). apply of_opt_ok in Hps.
        pose proof (rising_nat _ _ _ Hps Hz) as ->. split_and!; [|..].
        -- intros He. by rewrite He in Hl.
        -- intros i j a b Hij Ha Hb. apply list_lookup_fmap_Some in Ha as (a' & Ha & ->). apply list_lookup_fmap_Some in Hb as (b' & Hb & ->).
           pose proof (Hr _ _ _ _ Hij Ha Hb). rewrite Forall_forall in Hz. pose proof (Hz a' ltac:(by eapply elem_of_list_lookup_2)). lia.
        -- apply mapM_Some in Hps. apply Forall_forall. intros p Hp. apply elem_of_list_lookup in Hp as [i Hi].
           destruct (Forall2_lookup_r _ _ _ _ _ Hps Hi) as (z & _ & Hz'). by apply py_index_lt in Hz'.
        -- done.
    + split; [done|]. intros (_ & [H _] & _). exfalso. by apply Hz, Forall_forall.
  - rewrite h5_list_ok. destruct (decide (Forall (fun p => p < n) (true_positions bs))) as [Hlt|Hlt].
    + split.
      * intros (Hne & _ & _ & ->). split; [done|]. split; [done|]. simpl. intros [= H]. by destruct (true_positions bs).
      * intros ([= <-] & _ & Hl). split_and!; [|..|done|done].
        -- intros He. by rewrite He in Hl.
        -- apply true_from_rising.
    + split; [by intros (_ & _ & ? & _)|by intros [? _]].
  - rewrite h5_list_ok. destruct (decide (Forall (fun p => p < n) (true_positions (bools_of m)))) as [Hlt|Hlt].
    + split.
      * intros (Hne & _ & _ & ->). split; [done|]. split; [done|]. simpl. intros [= H]. by destruct (true_positions (bools_of m)).
      * intros ([= <-] & _ & Hl). split_and!; [|..|done|done].
        -- intros He. by rewrite He in Hl.
        -- apply true_from_rising.
    + split; [by intros (_ & _ & ? & _)|by intros [? _]].
Qed.
Lemma h5_resolve_nodup n it r : h5_resolve n it = Ok r -> match r with RInt _ => True | RSlice ps | RList ps => NoDup ps end.
Proof.
  destruct it as [z|s|zs|bs|m]; cbn [h5_resolve]; intros H.
  - by apply bind_ok in H as (? & _ & [= <-]).
  - destruct (decide _); [done|]. apply bind_ok in H as (ps & Hps & H). destruct (decide _); [done|]. injection H as <-.
    by apply slice_positions_ok in Hps as [_ ?].
  - destruct (decide _); [|done]. apply h5_list_ok in H as (_ & H & _ & ->). by apply rising_nodup.
  - apply h5_list_ok in H as (_ & H & _ & ->). by apply rising_nodup.
  - apply h5_list_ok in H as (_ & H & _ & ->). by apply rising_nodup.
Qed.

Lemma as_slice_shape rs : slice_lens (as_slice <$> rs) = omap r_len rs.
Proof. induction rs as [|[p|ps|ps] rs IH]; simpl; [done|done|by f_equal|by f_equal]. Qed.
Lemma as_slice_weave rs idx : weave (as_slice <$> rs) 0 idx = weave_in rs idx.
Proof.
  revert idx. induction rs as [|[p|ps|ps] rs IH]; intros idx; simpl.
  - by destruct idx.
  - by rewrite IH.
  - destruct idx as [|i idx]; [done|]. by rewrite IH.
  - destruct idx as [|i idx]; [done|]. by rewrite IH.
Qed.
Definition h5_resolved (sh : list nat) (items : list item) (rs : list ritem) : Prop :=
  Forall3 (fun n it r => h5_resolve n it = Ok r) sh (pad (length sh) items) rs.
Lemma h5_resolved_iff sh items rs :
  h5_resolved sh items rs <-> resolved sh items rs /\ Forall forward (pad (length sh) items) /\ Forall (fun r => r_len r <> Some 0) rs.
Proof.
  unfold h5_resolved, resolved. generalize (pad (length sh) items). intros its. split.
  - induction 1 as [|n it r sh its rs H1 H IH]; [split_and!; constructor|]. apply h5_resolve_iff in H1 as (Ha & Hb & Hc).
    destruct IH as (? & ? & ?). split_and!; by constructor.
  - intros (H & Hf & Hl). revert Hf Hl. induction H as [|n it r sh its rs H1 H IH]; intros Hf Hl; constructor.
    + apply Forall_cons in Hf as [? _]. apply Forall_cons in Hl as [? _]. by apply h5_resolve_iff.
    + apply Forall_cons in Hf as [_ ?]. apply Forall_cons in Hl as [_ ?]. auto.
Qed.
Lemma h5_select_ok sh items q :
  h5_select sh items = Ok q <->
  length items <= length sh /\ exists rs, h5_resolved sh items rs /\ length (list_lens rs) <= 1 /\
  q = (slice_lens (as_slice <$> rs), weave (as_slice <$> rs) 0).
Proof.
  unfold h5_select. destruct (decide (length sh < length items)) as [Hlt|Hlt]; [split; [done|intros [? _]; lia]|].
  change (items ++ replicate (length sh - length items) (ISlice slice_all)) with (pad (length sh) items).
  split.
  - intros H. split; [lia|]. apply bind_ok in H as (rs & Hrs & H). apply mapR_zip_Forall3 in Hrs; [|rewrite pad_length; lia].
    destruct (decide (1 < length (list_lens rs))); [done|]. injection H as <-. exists rs. split; [done|]. split; [lia|done].
  - intros (_ & rs & Hrs & H1 & ->). apply mapR_zip_Forall3 in Hrs; [|rewrite pad_length; lia]. rewrite Hrs. cbn [mbind res_bind].
    rewrite decide_False by lia. done.
Qed.
Lemma h5_sels_nodup L items rs ss :
  Forall NoDup L -> h5_resolved (length <$> L) items rs -> sels L rs ss -> Forall NoDup (sel_labels ss).
Proof.
  intros HN Hr. unfold h5_resolved in Hr. revert Hr. rewrite fmap_length. generalize (pad (length L) items). intros its Hr Hs.
  revert its Hr. induction Hs as [|l r s L rs ss Hs HH IH]; intros its Hr; [constructor|].
  apply Forall_cons in HN as [Hn HN]. simpl in Hr. inversion Hr as [|? it ? ? its' ? Hr1 Hr2]; subst.
  apply h5_resolve_nodup in Hr1. destruct r as [p|ps|ps]; simpl in *.
  - apply bind_Some in Hs as (? & _ & [= <-]). simpl. eauto.
  - apply bind_Some in Hs as (l' & Hl' & [= <-]). simpl. constructor; [|eauto]. by apply (mapM_index_inj l ps l').
  - apply bind_Some in Hs as (l' & Hl' & [= <-]). simpl. constructor; [|eauto]. by apply (mapM_index_inj l ps l').
Qed.
Lemma sels_some L rs ss : sels L rs ss -> Forall (fun r => r_len r <> Some 0) rs <-> selects_some ss.
Proof.
  unfold selects_some. induction 1 as [|l r s L rs ss Hs H IH].
  { split; [|done]. intros _ l Hl. by apply elem_of_nil in Hl. }
  rewrite Forall_cons, IH. destruct r as [p|ps|ps]; simpl in Hs.
  - apply bind_Some in Hs as (x & _ & [= <-]). simpl. naive_solver.
  - apply bind_Some in Hs as (l' & Hl' & [= <-]). simpl. apply mapM_Some_lookup in Hl' as [Hlen _]. setoid_rewrite elem_of_cons.
    split.
    + intros [Ha Hb] l0 [->|Hl0]; [|auto]. intros ->. apply Ha. f_equal. simpl in Hlen. lia.
    + intros Ha. split; [|auto]. intros [= He]. apply (Ha l'); [by left|]. apply nil_length_inv. lia.
  - apply bind_Some in Hs as (l' & Hl' & [= <-]). simpl. apply mapM_Some_lookup in Hl' as [Hlen _]. setoid_rewrite elem_of_cons.
    split.
    + intros [Ha Hb] l0 [->|Hl0]; [|auto]. intros ->. apply Ha. f_equal. simpl in Hlen. lia.
    + intros Ha. split; [|auto]. intros [= He]. apply (Ha l'); [by left|]. apply nil_length_inv. lia.
Qed.
Lemma forward_pad n items : Forall forward (pad n items) <-> Forall forward items.
Proof.
  unfold pad. rewrite Forall_app. split; [by intros [? _]|]. intros H. split; [done|]. apply Forall_replicate. simpl. lia.
Qed.

(** What h5py reads. *)
Lemma h5_reads y items rs ss :
  valid y -> length items <= lndim y -> h5_resolved (lshape y) items rs -> sels (llabel y) rs ss -> length (list_lens rs) <= 1 ->
  exists b, h5_getitem (larr y) items = Ok b /\ shape b = length <$> sel_labels ss /\
    (sel_labels ss <> [] -> restricted y ss (Larry (Nda (ldtype y) b) (sel_labels ss))) /\
    (sel_labels ss = [] -> exists v full, sel_full ss [] = Some full /\ cell y full = Some v /\ aget b [] = Some v).
Proof.
  intros Hv Hlen Hr Hs H1.
  assert (HN : Forall NoDup (sel_labels ss)).
  { eapply h5_sels_nodup; [by apply valid_nodup| |exact Hs]. rewrite valid_shape by done. exact Hr. }
  unfold h5_getitem. change (shape (larr y)) with (lshape y).
  assert (h5_select (lshape y) items = Ok (slice_lens (as_slice <$> rs), weave (as_slice <$> rs) 0)) as ->.
  { apply h5_select_ok. split; [exact Hlen|]. eauto. }
  cbn [mbind res_bind fst snd]. rewrite as_slice_shape, <-(sels_shape _ _ _ Hs). set (m := weave (as_slice <$> rs) 0).
  assert (Hmap : forall idx' ls', labels_at (sel_labels ss) idx' ls' ->
    exists idx full, m idx' = Some idx /\ sel_full ss ls' = Some full /\ labels_at (llabel y) idx full).
  { intros idx ls Hl. unfold m. rewrite as_slice_weave. by eapply weave_in_labels. }
  assert (Hmap' : forall idx' ls', labels_at (sel_labels ss) idx' ls' ->
    exists idx, m idx' = Some idx /\ labels_at (llabel y) idx (default [] (sel_full ss ls'))).
  { intros idx ls Hl. destruct (Hmap _ _ Hl) as (idx0 & full & Hm0 & Hf & Hla). exists idx0. by rewrite Hf. }
  destruct (regrid_is_Some y (sel_labels ss) m (fun ls => default [] (sel_full ss ls)) Hv Hmap') as [b Hb].
  rewrite Hb. exists b. split; [done|].
  pose proof Hb as (Hsb & Hwb & Hgb)%gather_Some. split; [done|]. split.
  - intros Hne. destruct (regrid y (sel_labels ss) m (fun ls => default [] (sel_full ss ls)) b Hv Hne HN Hb Hmap') as [Hvz Hc].
    split; [exact Hvz|]. split; [done|]. split; [done|]. intros ls Hls. simpl in Hls.
    apply in_grid_labels_at in Hls as Hls2. destruct Hls2 as [idx Hl].
    destruct (Hmap _ _ Hl) as (idx0 & full & Hm0 & Hf & Hla). exists full. split; [done|].
    rewrite Hc by done. by rewrite Hf.
  - intros He. assert (Hl0 : labels_at (sel_labels ss) [] []) by (rewrite He; constructor).
    destruct (Hmap _ _ Hl0) as (idx0 & full & Hm0 & Hf & Hla).
    destruct (valid_cell_at y idx0 full Hv Hla) as (v & Hg & Hc). exists v, full. split_and!; try done.
    rewrite Hgb; [by rewrite Hm0|]. rewrite He. by constructor.
Qed.
Lemma h5_getitem_inv y items b :
  h5_getitem (larr y) items = Ok b ->
  length items <= lndim y /\ exists rs, h5_resolved (lshape y) items rs /\ length (list_lens rs) <= 1.
Proof.
  intros H. apply bind_ok in H as (q & Hq & _). apply h5_select_ok in Hq as (Hlen & rs & Hrs & H1 & _). eauto.
Qed.
Lemma lens_one_list items rs : Forall2 same_kind items rs -> length (list_lens rs) <= 1 -> one_list items.
Proof.
  intros Hk. assert (Hnone : forall items rs, Forall2 same_kind items rs -> list_lens rs = [] -> forall i a, items !! i = Some a -> ~ is_list a).
  { clear. intros items rs Hk. induction Hk as [|it r items rs H1 H IH]; intros Hl i a Ha; [done|].
    destruct i as [|i]; simpl in Ha.
    - injection Ha as <-. destruct r, it; simpl in *; try done; tauto.
    - apply (IH ltac:(by destruct r) i a Ha). }
  induction Hk as [|it r items rs H1 H IH]; intros Hl i j a b Ha Hb Hla Hlb; [done|].
  destruct i as [|i], j as [|j]; simpl in Ha, Hb.
  - done.
  - injection Ha as <-. exfalso. assert (list_lens rs = []) as Hn by (destruct r; simpl in *; [by destruct it|by destruct it|apply nil_length_inv; lia]).
    by apply (Hnone _ _ H Hn j b Hb).
  - injection Hb as <-. exfalso. assert (list_lens rs = []) as Hn by (destruct r; simpl in *; [by destruct it|by destruct it|apply nil_length_inv; lia]).
    by apply (Hnone _ _ H Hn i a Ha).
  - f_equal. apply (IH ltac:(destruct r; simpl in *; lia) i j a b); done.
Qed.
Lemma one_list_unpad n items : one_list (pad n items) -> one_list items.
Proof. intros H i j a b Ha Hb. apply (H i j a b); unfold pad; by apply lookup_app_l_Some. Qed.

(** * Reading *)

Lemma picked_unique y ss g1 g2 : picked y ss g1 -> picked y ss g2 -> g1 = g2.
Proof.
  destruct g1 as [z1|v1|], g2 as [z2|v2|]; simpl; try done.
  - intros (Hv1 & Hd1 & Hl1 & Hc1) (Hv2 & Hd2 & Hl2 & Hc2). f_equal. apply larry_ext; [done|done|congruence|congruence|].
    intros ls Hls. destruct (Hc1 ls Hls) as (full & Hf & ->). rewrite Hl1 in Hls. rewrite <-Hl2 in Hls.
    destruct (Hc2 ls Hls) as (full' & Hf' & ->). congruence.
  - intros (Hv & _ & Hl & _) [He _]. destruct Hv as (_ & Hne & _). rewrite Hl in Hne. done.
  - intros [He _] (Hv & _ & Hl & _). destruct Hv as (_ & Hne & _). rewrite Hl in Hne. done.
  - intros (_ & f1 & Hf1 & Hc1) (_ & f2 & Hf2 & Hc2). f_equal. congruence.
Qed.

Lemma lara_complete f l y ix ss :
  lara_larry f l = Ok y -> valid y -> Forall item_ok (index_items ix) -> complete y ix -> no_sequence ix ->
  h5_accepts (llabel y) (index_items ix) ss -> exists g, lara_getitem f l ix = Ok g /\ picked y ss g.
Proof.
  intros Hy Hv Hok Hc Hns (Hf & H1 & Hsa & Hso).
  destruct (selects_all_resolved y _ ss Hv Hok Hsa) as (Hlen & rs & Hr & Hs).
  assert (Hr5 : h5_resolved (lshape y) (index_items ix) rs).
  { apply h5_resolved_iff. split; [done|]. split; [by apply forward_pad|]. by eapply sels_some. }
  pose proof (resolved_kind _ _ _ Hr) as Hk.
  assert (Hll : length (list_lens rs) <= 1) by (eapply one_list_lens; [exact Hk|]; by apply pad_one_list).
  destruct (h5_reads y _ rs ss Hv Hlen Hr5 Hs Hll) as (b & Hb & Hsb & Hres & Hval).
  unfold lara_getitem. rewrite Hy. cbn [mbind res_bind].
  assert (Hne : llabel y <> []) by (by destruct Hv as (_ & ? & _)). destruct (llabel y) as [|a L] eqn:Hl; [done|].
  assert (Hax : axis_label y 0 = Ok a) by (apply axis_label_ok; by rewrite Hl).
  assert (Hsh : lshape y !! 0 = Some (length a)) by (rewrite <-valid_shape, Hl by done; done).
  pose proof (valid_ndim y Hv) as Hnd. rewrite Hl in Hnd. simpl in Hnd.
  destruct ix as [z|s|zs|bs|m|items]; try done; cbn [index_items] in *.
  - apply selects_single_inv in Hsa as (s & -> & Hs1). destruct s as [x|]; [|done]. simpl in Hs1.
    rewrite Hsh. simpl. apply py_get_mod in Hs1 as (p & Hp & Hx).
    apply py_index_Some in Hp. rewrite decide_False by lia. rewrite Hb. simpl.
    rewrite sel_labels_cons_at in *. destruct (decide (lndim y <= 1)) as [Hn1|Hn1].
    + assert (L = []) as -> by (destruct L; [done|simpl in *; lia]). destruct (Hval eq_refl) as (v & full & Hfu & Hcl & Hg).
      rewrite Hg. simpl. eexists. split; [done|]. simpl. eauto.
    + eexists. split; [done|]. simpl. apply Hres. intros ->. simpl in *. lia.
  - apply selects_single_inv in Hsa as (s0 & -> & Hs1). destruct s0 as [|l']; [done|]. simpl in Hs1.
    rewrite Hax. simpl. rewrite Hs1. simpl. rewrite Hb. simpl. rewrite sel_labels_cons_among in *. eexists. split; [done|]. simpl. by apply Hres.
  - assert (tuple_label y items = Ok (sel_labels ss)) as ->.
    { apply tuple_label_ok; [done|done|]. destruct Hsa as [Hlen2 Hss]. rewrite <-Hl in Hss. rewrite (valid_ndim y Hv) in Hss.
      change (items ++ replicate (lndim y - length items) (ISlice slice_all)) with (pad (lndim y) items) in Hss.
      destruct (items_complete _ _ _ (pad_ok (lndim y) items Hok) Hss) as (_ & _ & _ & Hos).
      eexists. split; [exact Hos|]. by rewrite somes_sel_opt. }
    cbn [mbind res_bind]. rewrite Hb. cbn [mbind res_bind].
    change (length (lshape y)) with (lndim y) in Hk.
    destruct (forallb b_int items) eqn:Hai.
    + apply forallb_ints in Hai. specialize (Hc Hai).
      assert (sel_labels ss = []) as Hnil.
      { apply (ints_sel_labels _ _ _ _ Hk Hs). unfold pad. rewrite <-valid_ndim, Hc, Nat.sub_diag by done. simpl. by rewrite app_nil_r. }
      rewrite Hsb, Hnil. simpl. destruct (Hval Hnil) as (v & full & Hfu & Hcl & Hg).
      rewrite Hg. simpl. eexists. split; [done|]. simpl. eauto.
    + assert (Hne2 : sel_labels ss <> []).
      { intros Hnil. apply (ints_sel_labels _ _ _ _ Hk Hs) in Hnil. unfold pad in Hnil.
        apply Forall_app in Hnil as [Hi _]. apply forallb_ints in Hi. congruence. }
      specialize (Hres Hne2). exists (GLar (Larry (Nda (ldtype y) b) (sel_labels ss))). split; [|exact Hres].
      unfold new_larry. destruct (existsb b_list items); [|done].
      assert (make (Nda (ldtype y) b) (Some (sel_labels ss)) = Ok (Larry (Nda (ldtype y) b) (sel_labels ss))) as ->; [|done].
      apply make_some_ok. split_and!; try done.
      eapply h5_sels_nodup; [by apply valid_nodup| |rewrite Hl; exact Hs]. rewrite valid_shape by done. exact Hr5.
Qed.

Lemma lara_accepts f l y ix g :
  lara_larry f l = Ok y -> valid y -> Forall item_ok (index_items ix) ->
  lara_getitem f l ix = Ok g -> no_sequence ix /\ exists ss, h5_accepts (llabel y) (index_items ix) ss.
Proof.
  intros Hy Hv Hok H. unfold lara_getitem in H. rewrite Hy in H. cbn [mbind res_bind] in H.
  assert (Hgo : forall items b, (Forall not_larry items \/ exists label, tuple_label y items = Ok label) -> Forall item_ok items ->
    h5_getitem (larr y) items = Ok b -> exists ss, h5_accepts (llabel y) items ss).
  { clear ix H Hok. intros items b Hnl Hok Hb. apply h5_getitem_inv in Hb as (Hlen & rs & Hr5 & Hll).
    pose proof Hr5 as (Hr & Hf & Hne)%h5_resolved_iff.
    assert (exists ss, selects_all (llabel y) items ss /\ sels (llabel y) rs ss) as (ss & Hsa & Hs).
    { destruct Hnl as [Hnl|[label Hl]]; [by apply resolved_selects_all|].
      apply tuple_label_ok in Hl as (os & Hos & ->); [|done|done].
      pose proof Hr as Hr'. unfold resolved in Hr'. rewrite <-(valid_shape y Hv) in Hr' at 1. change (length (lshape y)) with (lndim y) in Hr'.
      destruct (items_sound _ _ _ _ (pad_ok (lndim y) items Hok) Hos Hr') as (ss & Hss & Hsel & _).
      exists ss. split; [|done]. split; [by rewrite valid_ndim|]. by rewrite valid_ndim. }
    exists ss. split; [by eapply forward_pad|]. split.
    - apply (one_list_unpad (length (lshape y))). eapply lens_one_list; [by apply resolved_kind|done].
    - split; [done|]. by eapply sels_some. }
  destruct ix as [z|s|zs|bs|m|items]; cbn [index_items] in *.
  - apply bind_ok in H as (n & Hn & H). destruct (decide _); [done|]. apply bind_ok in H as (b & Hb & _).
    split; [done|]. eapply Hgo; [left|done|exact Hb]. by repeat constructor.
  - apply bind_ok in H as (a & Ha & H). apply bind_ok in H as (a' & Ha' & H). apply bind_ok in H as (b & Hb & _).
    split; [done|]. eapply Hgo; [left|done|exact Hb]. by repeat constructor.
  - exfalso. apply bind_ok in H as (a & Ha & H). apply bind_ok in H as (a' & Ha' & H). by destruct (py_nodup a').
  - exfalso. apply bind_ok in H as (a & Ha & H). apply bind_ok in H as (a' & Ha' & H). destruct (decide _); [|done].
    by apply bind_ok in H as (? & _ & ?).
  - exfalso. repeat (destruct (decide _); [done|]). done.
  - apply bind_ok in H as (label & Hl & H). apply bind_ok in H as (b & Hb & _). split; [done|]. eapply Hgo; [right|done|exact Hb]. eauto.
Qed.

(** * Opening *)

Lemma load_open f key y : load f (Some key) = Ok y -> exists l, lara_open f key = Ok l /\ la_key l = key /\ lara_larry f l = Ok y.
Proof.
  unfold load, lara_open, lara_larry, h5_x. intros H. apply bind_ok in H as (n & Hn & H). rewrite Hn. cbn [mbind res_bind].
  destruct (is_archived n); [|done]. apply bind_ok in H as (label & Hl & H). rewrite Hl. cbn [mbind res_bind].
  eexists. split; [reflexivity|]. cbn [la_key la_label]. split; [done|]. rewrite Hn. cbn [mbind res_bind].
  destruct n as [| |at_ ms]; [done..|]. destruct (dict_get ms "x"%string) as [[x| |]|]; [|done..]. cbn [mbind res_bind].
  apply make_some_ok in H as (-> & _). done.
Qed.
Lemma open_larry f key y l : load f (Some key) = Ok y -> lara_open f key = Ok l -> la_key l = key /\ lara_larry f l = Ok y.
Proof. intros Hy Hl. apply load_open in Hy as (l' & Hl' & H). assert (l' = l) as -> by congruence. done. Qed.

Lemma lara_get f key y l ix g :
  load f (Some key) = Ok y -> valid y -> lara_open f key = Ok l ->
  Forall item_ok (index_items ix) -> complete y ix ->
  lara_getitem f l ix = Ok g <-> no_sequence ix /\ exists ss, h5_accepts (llabel y) (index_items ix) ss /\ picked y ss g.
Proof.
  intros Hy Hv Hl Hok Hc. destruct (open_larry _ _ _ _ Hy Hl) as [_ Hla]. split.
  - intros H. pose proof (lara_accepts f l y ix g Hla Hv Hok H) as (Hns & ss & Ha). split; [done|]. exists ss. split; [done|].
    destruct (lara_complete f l y ix ss Hla Hv Hok Hc Hns Ha) as (g' & Hg' & Hp). by assert (g' = g) as <- by congruence.
  - intros (Hns & ss & Ha & Hp). destruct (lara_complete f l y ix ss Hla Hv Hok Hc Hns Ha) as (g' & Hg' & Hp').
    by rewrite (picked_unique y ss g g' Hp Hp').
Qed.
Lemma lara_all f key y l :
  load f (Some key) = Ok y -> valid y -> lara_open f key = Ok l -> ~ [] ∈ llabel y ->
  lara_getitem f l (XSlice slice_all) = Ok (GLar y).
Proof.
  intros Hy Hv Hl Hne. apply (lara_get f key y l); [done|done|done|by repeat constructor|done|]. split; [done|].
  exists (Among <$> llabel y). assert (Hn0 : llabel y <> []) by (by destruct Hv as (_ & ? & _)). split.
  - split; [repeat constructor; simpl; lia|]. split; [|split].
    + intros i j a b Ha Hb. cbn [index_items] in *. destruct i as [|i]; [|done]. destruct j as [|j]; [done|done].
    + destruct (llabel y) as [|a L]; [done|]. rewrite fmap_cons. apply selects_single. simpl. apply py_slice_all.
    + intros l0. rewrite sel_labels_among. intros H ->. done.
  - simpl. split; [done|]. split; [done|]. split; [by rewrite sel_labels_among|]. intros ls Hls. exists ls. split; [|done].
    apply sel_full_among. by apply in_grid_length in Hls.
Qed.
Lemma lara_all_empty f key y l g :
  load f (Some key) = Ok y -> valid y -> lara_open f key = Ok l -> [] ∈ llabel y ->
  lara_getitem f l (XSlice slice_all) <> Ok g.
Proof.
  intros Hy Hv Hl Hin H. apply (lara_get f key y l) in H as (_ & ss & (_ & _ & Hsa & Hso) & _);
    [|done|done|done|by repeat constructor|done].
  assert (Hn0 : llabel y <> []) by (by destruct Hv as (_ & ? & _)). cbn [index_items] in Hsa.
  assert (sel_labels ss = llabel y) as He.
  { destruct (llabel y) as [|a L]; [done|]. apply selects_single_inv in Hsa as (s & -> & Hs). destruct s as [|l']; [done|].
    simpl in Hs. rewrite py_slice_all in Hs. injection Hs as <-. by rewrite sel_labels_cons_among. }
  apply (Hso []); [|done]. by rewrite He.
Qed.

(** * Writing *)

Lemma h5_set_spec y items rs ss u b :
  valid y -> length items <= lndim y -> h5_resolved (lshape y) items rs -> sels (llabel y) rs ss ->
  has_dtype (ldtype y) u = true ->
  foldM (scatter_step (weave (as_slice <$> rs) 0) (fun _ => Ok u)) (larr y) (indices (slice_lens (as_slice <$> rs))) = Ok b ->
  overwritten y ss (fun _ w => w = u) (Larry (Nda (ldtype y) b) (llabel y)).
Proof.
  intros Hv Hlen Hr Hs Hu H. rewrite as_slice_shape, <-(sels_shape _ _ _ Hs) in H.
  set (m := weave (as_slice <$> rs) 0) in *. set (sh := length <$> sel_labels ss) in *.
  assert (Hm : forall idx, m idx = weave_in rs idx) by (intros; apply as_slice_weave).
  assert (Hrange : forall idx p, idx ∈ indices sh -> m idx = Some p -> in_range (shape (larr y)) p).
  { intros idx p Hidx Hp. apply elem_of_indices in Hidx. rewrite Hm in Hp.
    destruct (labels_at_exists _ _ Hidx) as [ls Hls]. destruct (weave_in_labels _ _ _ _ _ Hs Hls) as (p' & full & Hp' & _ & Hla).
    assert (p' = p) as -> by congruence. change (shape (larr y)) with (lshape y). rewrite <-valid_shape by done. by eapply labels_at_in_range. }
  destruct (scatter_spec m (fun _ => Ok u) (indices sh) (larr y) b (valid_wf y Hv) Hrange ltac:(done) H) as (Hsb & Hwb & Hin & Hout).
  assert (Hvz : valid (Larry (Nda (ldtype y) b) (llabel y))).
  { apply valid_of_array; [done|done|done|]. intros p v Hg.
    destruct (decide (Exists (fun idx => m idx = Some p) (indices sh))) as [He|He].
    - apply Exists_exists in He as (idx & Hidx & Hmi). destruct (Hin idx Hidx) as (p2 & u2 & E1 & E2 & E3).
      assert (v = u) as -> by congruence. done.
    - rewrite Hout in Hg by (intros idx Hidx Hmi; apply He, Exists_exists; eauto).
      eapply (nda_wf_typed (lx y)); [by destruct Hv|exact Hg]. }
  split_and!; [done|done|done| |].
  - intros ls full Hls Hf. destruct (sel_full_grid _ _ _ _ _ Hs Hls Hf) as (idx & p & Hidx & _ & Hp & Hla).
    exists u. split; [|done]. rewrite (set_cell y b p full Hv Hla).
    destruct (Hin idx ltac:(by apply elem_of_indices)) as (p2 & u2 & E1 & E2 & E3). rewrite Hm in E1. congruence.
  - intros full Hno. destruct (decide (in_grid (llabel y) full)) as [Hg|Hg].
    + apply in_grid_labels_at in Hg as [p Hla]. rewrite (set_cell y b p full Hv Hla), Hout.
      * symmetry. apply cell_at; [by apply valid_nodup|done].
      * intros idx Hidx Hmi. apply elem_of_indices in Hidx. rewrite Hm in Hmi.
        destruct (labels_at_exists _ _ Hidx) as [ls Hls]. destruct (weave_in_labels _ _ _ _ _ Hs Hls) as (p' & full' & Hp' & Hf' & Hla').
        assert (p' = p) as -> by congruence. assert (full' = full) as -> by (by eapply labels_at_fun).
        apply (Hno ls); [|done]. apply in_grid_labels_at. eauto.
    + rewrite (proj2 (cell_None_grid y full Hv) Hg). by apply cell_None_grid.
Qed.
Lemma h5_set_sound y items v x' :
  valid y -> Forall not_larry items -> h5_setitem (lx y) items v = Ok x' ->
  exists ss u, h5_accepts (llabel y) items ss /\ store (ldtype y) v = Ok u /\ overwritten y ss (fun _ w => w = u) (Larry x' (llabel y)).
Proof.
  intros Hv Hnl H. unfold h5_setitem in H. apply bind_ok in H as (u & Hu & H). apply bind_ok in H as (q & Hq & H).
  apply bind_ok in H as (b & Hb & [= <-]). change (nd_shape (lx y)) with (lshape y) in Hq.
  apply h5_select_ok in Hq as (Hlen & rs & Hr5 & Hll & ->). cbn [fst snd] in Hb.
  pose proof Hr5 as (Hr & Hf & Hne)%h5_resolved_iff.
  destruct (resolved_selects_all y items rs Hv Hnl Hlen Hr) as (ss & Hsa & Hs).
  exists ss, u. split.
  - split; [by eapply forward_pad|]. split.
    + apply (one_list_unpad (length (lshape y))). eapply lens_one_list; [by apply resolved_kind|done].
    + split; [done|]. by eapply sels_some.
  - split; [done|]. apply (h5_set_spec y items rs ss u b); [done|done|done|done|by eapply store_typed|exact Hb].
Qed.
Lemma h5_set_complete y items v u ss :
  valid y -> Forall not_larry items -> h5_accepts (llabel y) items ss -> store (ldtype y) v = Ok u ->
  exists x', h5_setitem (lx y) items v = Ok x'.
Proof.
  intros Hv Hnl (Hf & H1 & Hsa & Hso) Hu.
  destruct (selects_all_resolved y _ ss Hv (not_larry_ok _ Hnl) Hsa) as (Hlen & rs & Hr & Hs).
  assert (Hr5 : h5_resolved (lshape y) items rs).
  { apply h5_resolved_iff. split; [done|]. split; [by apply forward_pad|]. by eapply sels_some. }
  pose proof (resolved_kind _ _ _ Hr) as Hk.
  assert (Hll : length (list_lens rs) <= 1) by (eapply one_list_lens; [exact Hk|]; by apply pad_one_list).
  unfold h5_setitem. change (nd_dtype (lx y)) with (ldtype y). rewrite Hu. cbn [mbind res_bind]. change (nd_shape (lx y)) with (lshape y).
  assert (h5_select (lshape y) items = Ok (slice_lens (as_slice <$> rs), weave (as_slice <$> rs) 0)) as ->.
  { apply h5_select_ok. split; [exact Hlen|]. eauto. }
  cbn [mbind res_bind fst snd].
  destruct (scatter_total (weave (as_slice <$> rs) 0) (fun _ => Ok u) (indices (slice_lens (as_slice <$> rs))) (larr y)) as [b Hb].
  { intros idx Hidx. apply elem_of_indices in Hidx. rewrite as_slice_shape, <-(sels_shape _ _ _ Hs) in Hidx. split; [|eauto].
    rewrite as_slice_weave. destruct (labels_at_exists _ _ Hidx) as [ls Hls].
    destruct (weave_in_labels _ _ _ _ _ Hs Hls) as (idx0 & _ & -> & _). eauto. }
  exists (Nda (ldtype y) b). change (nd_arr (lx y)) with (larr y). unfold scatter_step in Hb. cbn [mbind res_bind] in Hb. rewrite Hb. done.
Qed.

(** * The file after writing *)

Lemma node_alter_app g p : forall n q, node_alter g n (p ++ q) = node_alter (fun c => node_alter g c q) n p.
Proof. induction p as [|k p IH]; intros n q; [done|]. simpl. destruct n as [| |a ms]; [done..|]. destruct (dict_get ms k); [|done]. simpl. by rewrite IH. Qed.
Lemma node_alter_get g p : forall n c, node_get n p = Some c -> forall c', g c = Some c' ->
  exists n', node_alter g n p = Some n' /\ node_get n' p = Some c' /\
  forall q, ~ p `prefix_of` q -> ~ q `prefix_of` p -> node_get n' q = node_get n q.
Proof.
  induction p as [|k p IH]; intros n c Hc c' Hg.
  { simpl in *. injection Hc as ->. exists c'. split; [done|]. split; [done|]. intros q Hq. destruct Hq. apply prefix_nil. }
  simpl in Hc. destruct n as [| |a ms]; [done..|]. apply bind_Some in Hc as (d & Hd & Hc).
  destruct (IH d c Hc c' Hg) as (d' & Hd' & Hg' & Ho). exists (NGroup a (dict_set k d' ms)). simpl. rewrite Hd. simpl. rewrite Hd'. simpl.
  split; [done|]. split; [rewrite dict_get_set; by rewrite decide_True|].
  intros q Hq1 Hq2. destruct q as [|k' q]; [destruct Hq2; apply prefix_nil|]. simpl. rewrite dict_get_set.
  destruct (decide (k' = k)) as [->|]; [|done]. rewrite Hd. simpl. apply Ho.
  - intros Hp. apply Hq1. by apply prefix_cons.
  - intros Hp. apply Hq2. by apply prefix_cons.
Qed.
(** Nothing but the numbers is changed. *)
Inductive alike : node -> node -> Prop :=
  | alike_x x x' : nd_ndim x = nd_ndim x' -> alike (NX x) (NX x')
  | alike_label a dt : alike (NLabel a dt) (NLabel a dt)
  | alike_group at_ ms ms' : ms.*1 = ms'.*1 -> Forall2 alike ms.*2 ms'.*2 -> alike (NGroup at_ ms) (NGroup at_ ms').
Lemma alike_refl : forall n, alike n n.
Proof.
  fix IH 1. intros [x|a dt|at_ ms]; [by constructor|constructor|]. constructor; [done|].
  induction ms as [|[k c] ms IHm]; constructor; [apply IH|exact IHm].
Qed.
Lemma alike_get (ms ms' : pydict string node) k : ms.*1 = ms'.*1 -> Forall2 alike ms.*2 ms'.*2 ->
  match dict_get ms k, dict_get ms' k with Some c, Some c' => alike c c' | None, None => True | _, _ => False end.
Proof.
  revert ms'. induction ms as [|[k1 c1] ms IH]; intros [|[k2 c2] ms'] Hk Hv; try done. simpl in Hk, Hv. injection Hk as -> Hk.
  inversion Hv as [|? ? ? ? Hc Hv']; subst. simpl. destruct (decide (k = k2)); [done|]. by apply IH.
Qed.
Lemma alike_archived n n' : alike n n' -> is_archived n = is_archived n'.
Proof.
  intros H. destruct H as [x x' Hx|a dt|at_ ms ms' Hk Hv]; [done|done|]. simpl. destruct at_; [|done].
  pose proof (alike_get ms ms' "x" Hk Hv) as Hx. destruct (dict_get ms "x"%string) as [c|], (dict_get ms' "x"%string) as [c'|]; try done.
  destruct Hx as [x x' Hx| |]; [|done..]. rewrite Hx. induction (seq 0 (nd_ndim x')) as [|i l IH]; [done|]. simpl. rewrite IH. f_equal.
  pose proof (alike_get ms ms' (str_nat i) Hk Hv) as Hi. by destruct (dict_get ms (str_nat i)), (dict_get ms' (str_nat i)).
Qed.
Lemma alike_visit : forall n n' pre, alike n n' -> visit pre n = visit pre n'.
Proof.
  fix IH 1. intros [x|a dt|at_ ms] n' pre H; inversion H as [| |? ? ms' Hk Hv]; subst; [done|done|]. clear H. simpl. f_equal.
  revert ms' Hk Hv. induction ms as [|[k1 c1] ms IHm]; intros [|[k2 c2] ms'] Hk Hv; try done. simpl in Hk, Hv. injection Hk as -> Hk.
  inversion Hv as [|? ? ? ? Hc Hv']; subst. simpl. f_equal; [|by apply IHm]. rewrite (alike_archived _ _ Hc). f_equal. by apply IH.
Qed.
Lemma alike_set (ms : pydict string node) k c c' : dict_get ms k = Some c -> alike c c' -> ms.*1 = (dict_set k c' ms).*1 /\ Forall2 alike ms.*2 (dict_set k c' ms).*2.
Proof.
  induction ms as [|[k1 c1] ms IH]; intros Hk Hc; [done|]. simpl in Hk |- *. destruct (decide (k = k1)) as [->|].
  - injection Hk as ->. split; [done|]. simpl. constructor; [done|]. clear. induction ms as [|[k2 c2] ms IHm]; constructor; [apply alike_refl|done].
  - destruct (IH Hk Hc) as [H1 H2]. simpl. split; [by f_equal|]. constructor; [apply alike_refl|done].
Qed.
Lemma alike_alter g p : forall n n', (forall c c', node_get n p = Some c -> g c = Some c' -> alike c c') -> node_alter g n p = Some n' -> alike n n'.
Proof.
  induction p as [|k p IH]; intros n n' Hg H; simpl in H; [by apply Hg|].
  destruct n as [| |a ms]; [done..|]. apply bind_Some in H as (c & Hc & H). apply bind_Some in H as (c' & Hc' & [= <-]).
  assert (alike c c') as Ha. { apply (IH c c'); [|done]. intros d d' Hd. apply Hg. simpl. by rewrite Hc. }
  destruct (alike_set ms k c c' Hc Ha) as [H1 H2]. by constructor.
Qed.

(** The file [f'] is [f] with the data [x'] at a key. *)
Lemma load_put f key y x' :
  load f (Some key) = Ok y -> nd_shape x' = lshape y ->
  exists f', node_alter (put_x x') f (path_of key ++ ["x"%string]) = Some f' /\
  load f' (Some key) = Ok (Larry x' (llabel y)) /\
  (forall k, ~ path_of key `prefix_of` path_of k -> ~ path_of k `prefix_of` path_of key -> load f' (Some k) = load f (Some k)) /\
  io_keys f' = io_keys f.
Proof.
  intros H Hsh. unfold load in H. apply bind_ok in H as (n & Hn & H). apply of_opt_ok in Hn.
  destruct (is_archived n) eqn:Ha; [|done]. apply bind_ok in H as (label & Hl & H).
  destruct n as [| |at_ ms]; [done..|]. destruct (dict_get ms "x"%string) as [[x| |]|] eqn:Hx; [|done..].
  apply make_some_ok in H as (-> & Hl0 & Hls & HN). unfold lshape, larr in Hsh. cbn [lx llabel] in *.
  assert (Hnd : nd_ndim x' = nd_ndim x) by (exact (f_equal length Hsh)).
  unfold h5_get in Hn. destruct (decide (key = ""%string)) as [|Hk]; [done|].
  assert (Hput : node_alter (put_x x') (NGroup at_ ms) ["x"%string] = Some (NGroup at_ (dict_set "x"%string (NX x') ms))).
  { simpl. rewrite Hx. done. }
  destruct (node_alter_get (fun c => node_alter (put_x x') c ["x"%string]) (path_of key) f _ Hn _ Hput) as (f' & Hf' & Hg & Ho).
  exists f'. split; [by rewrite node_alter_app|].
  assert (Hal : alike (NGroup at_ ms) (NGroup at_ (dict_set "x"%string (NX x') ms))).
  { destruct (alike_set ms "x"%string (NX x) (NX x') Hx) as [H1 H2]; [by constructor|]. by constructor. }
  split; [|split].
  - unfold load, h5_get. rewrite decide_False by done. rewrite Hg. cbn [of_opt mbind res_bind].
    rewrite <-(alike_archived _ _ Hal), Ha.
    assert (load_label (NGroup at_ (dict_set "x"%string (NX x') ms)) = Ok label) as ->.
    { rewrite <-Hl. unfold load_label. rewrite dict_get_set, decide_True by done. rewrite Hx, Hnd.
      induction (seq 0 (nd_ndim x)) as [|i l IH]; [done|]. cbn [mapR]. rewrite dict_get_set, decide_False by apply str_nat_x.
      by rewrite IH. }
    cbn [mbind res_bind]. rewrite dict_get_set, decide_True by done. apply make_some_ok. split_and!; try done.
    by rewrite Hsh.
  - intros k H1 H2. unfold load, h5_get. destruct (decide (k = ""%string)) as [|Hk']; [done|]. by rewrite (Ho _ H1 H2).
  - unfold io_keys, archive_directory. symmetry. apply alike_visit.
    apply (alike_alter (fun c => node_alter (put_x x') c ["x"%string]) (path_of key)); [|done].
    intros c c' Hc Hc'. assert (c = NGroup at_ ms) as -> by congruence. assert (c' = NGroup at_ (dict_set "x"%string (NX x') ms)) as -> by congruence.
    done.
Qed.

Lemma lara_set_run l ix v f x :
  h5_x f (la_key l) = Ok x ->
  lara_setitem l ix (SVal v) f =
  if decide (bools_fit (nd_shape x) ix) then
    match h5_setitem x (index_items ix) v with
    | Ok x' => match node_alter (put_x x') f (path_of (la_key l) ++ ["x"%string]) with Some f' => ([f'], Ok ()) | None => ([], Err KeyError) end
    | Err e => ([], Err e)
    end
  else ([], Err TypeError).
Proof.
  intros Hx. unfold lara_setitem. rewrite pbind_get, Hx, pbind_lift_ok.
  assert (Hrest : forall e, (x' <- plift (h5_setitem x (index_items ix) v);; h5_alter e (put_x x') (path_of (la_key l) ++ ["x"%string])) f =
    match h5_setitem x (index_items ix) v with
    | Ok x' => match node_alter (put_x x') f (path_of (la_key l) ++ ["x"%string]) with Some f' => ([f'], Ok ()) | None => ([], Err e) end
    | Err e => ([], Err e)
    end).
  { intros e. destruct (h5_setitem x (index_items ix) v) as [x'|e']; [by rewrite pbind_lift_ok|by rewrite pbind_lift_err]. }
  destruct ix as [z|s|zs|bs|m|items]; cbn [bools_fit]; try (rewrite decide_True by done; rewrite pbind_ret; apply Hrest).
  destruct (decide (nd_shape x = [length bs])) as [H|H]; [rewrite pbind_ret; apply Hrest|].
  by rewrite (pbind_err _ _ _ [] TypeError).
Qed.
Lemma overwritten_shape y ss P x' : overwritten y ss P (Larry x' (llabel y)) -> valid y -> nd_shape x' = lshape y.
Proof. intros (Hv & _) Hvy. rewrite <-(valid_shape y Hvy). exact (eq_sym (valid_shape _ Hv)). Qed.

Lemma lara_set f key y l ix v f' :
  load f (Some key) = Ok y -> valid y -> lara_open f key = Ok l -> Forall not_larry (index_items ix) ->
  prun (lara_setitem l ix (SVal v)) f = (f', Ok ()) ->
  exists ss u z, h5_accepts (llabel y) (index_items ix) ss /\ store (ldtype y) v = Ok u /\ overwritten y ss (fun _ w => w = u) z /\
    load f' (Some key) = Ok z /\
    (forall k, ~ path_of key `prefix_of` path_of k -> ~ path_of k `prefix_of` path_of key -> load f' (Some k) = load f (Some k)) /\
    io_keys f' = io_keys f.
Proof.
  intros Hy Hv Hl Hnl H. destruct (open_larry _ _ _ _ Hy Hl) as [Hkey Hla].
  unfold lara_larry in Hla. apply bind_ok in Hla as (x & Hx & Hla). injection Hla as Hyx.
  assert (x = lx y) as -> by (by rewrite <-Hyx). clear Hyx.
  unfold prun in H. rewrite (lara_set_run l ix v f _ Hx) in H. destruct (decide (bools_fit (nd_shape (lx y)) ix)) as [Hb|]; [|done].
  destruct (h5_setitem (lx y) (index_items ix) v) as [x'|] eqn:Hs; [|done].
  destruct (h5_set_sound y _ v x' Hv Hnl Hs) as (ss & u & Ha & Hu & How).
  destruct (load_put f key y x' Hy (overwritten_shape _ _ _ _ How Hv)) as (f2 & Hf2 & Hl2 & Ho & Hks).
  rewrite Hkey, Hf2 in H. injection H as <-. exists ss, u, (Larry x' (llabel y)). split_and!; done.
Qed.
Lemma lara_set_total f key y l ix v u ss :
  load f (Some key) = Ok y -> valid y -> lara_open f key = Ok l -> Forall not_larry (index_items ix) ->
  h5_accepts (llabel y) (index_items ix) ss -> bools_fit (lshape y) ix -> store (ldtype y) v = Ok u ->
  exists f', lara_setitem l ix (SVal v) f = ([f'], Ok ()).
Proof.
  intros Hy Hv Hl Hnl Ha Hb Hu. destruct (open_larry _ _ _ _ Hy Hl) as [Hkey Hla].
  unfold lara_larry in Hla. apply bind_ok in Hla as (x & Hx & Hla). injection Hla as Hyx.
  assert (x = lx y) as -> by (by rewrite <-Hyx). clear Hyx.
  rewrite (lara_set_run l ix v f _ Hx), decide_True by done.
  destruct (h5_set_complete y _ v u ss Hv Hnl Ha Hu) as [x' Hs]. rewrite Hs.
  destruct (h5_set_sound y _ v x' Hv Hnl Hs) as (ss' & u' & _ & _ & How).
  destruct (load_put f key y x' Hy (overwritten_shape _ _ _ _ How Hv)) as (f2 & Hf2 & _). rewrite Hkey, Hf2. eauto.
Qed.
(** A failure leaves the file alone. *)
Lemma lara_set_fails l ix value f e f' : prun (lara_setitem l ix value) f = (f', Err e) -> f' = f.
Proof.
  unfold prun. destruct (h5_x f (la_key l)) as [x|e0] eqn:Hx.
  - destruct value as [v|z].
    + rewrite (lara_set_run _ _ _ _ _ Hx). destruct (decide _); [|by intros [= <-]]. destruct (h5_setitem x (index_items ix) v); [|by intros [= <-]].
      destruct (node_alter _ _ _); [done|]. by intros [= <-].
    + unfold lara_setitem. rewrite pbind_get, Hx, pbind_lift_ok. destruct (lara_getitem f l ix) as [g|e1]; [|rewrite pbind_lift_err; by intros [= <-]].
      rewrite pbind_lift_ok. destruct g as [z0| |]; [|by intros [= <-]..]. destruct (decide _); by intros [= <-].
  - unfold lara_setitem. rewrite pbind_get, Hx, pbind_lift_err. by intros [= <-].
Qed.
Lemma lara_set_larry l ix z f : exists e, prun (lara_setitem l ix (SLarry z)) f = (f, Err e).
Proof.
  unfold prun, lara_setitem. rewrite pbind_get. destruct (h5_x f (la_key l)) as [x|e0]; [|rewrite pbind_lift_err; by eexists].
  rewrite pbind_lift_ok. destruct (lara_getitem f l ix) as [g|e1]; [|rewrite pbind_lift_err; by eexists].
  rewrite pbind_lift_ok. destruct g as [z0| |]; [|by eexists..]. destruct (decide _); by eexists.
Qed.
Lemma lara_attributes f key y l :
  load f (Some key) = Ok y -> lara_open f key = Ok l ->
  la_label l = llabel y /\ lara_shape f l = Ok (lshape y) /\ lara_dtype f l = Ok (ldtype y) /\ lara_ndim f l = Ok (lndim y) /\
  lara_size f l = Ok (lsize y).
Proof.
  intros Hy Hl. destruct (open_larry _ _ _ _ Hy Hl) as [_ Hla]. apply bind_ok in Hla as (x & Hx & [= <-]).
  unfold lara_shape, lara_dtype, lara_ndim, lara_size. unfold lara_shape. rewrite Hx. done.
Qed.

(** * Which error *)
Lemma lara_set_larry_error f key y l ix z :
  load f (Some key) = Ok y -> lara_open f key = Ok l ->
  (forall e, lara_getitem f l ix = Err e -> prun (lara_setitem l ix (SLarry z)) f = (f, Err e)) /\
  (forall z0, lara_getitem f l ix = Ok (GLar z0) ->
     prun (lara_setitem l ix (SLarry z)) f = (f, Err (if decide (llabel z0 = llabel z) then TypeError else IndexError))) /\
  (forall g, lara_getitem f l ix = Ok g -> (forall z0, g <> GLar z0) -> prun (lara_setitem l ix (SLarry z)) f = (f, Err AttributeError)).
Proof.
  intros Hy Hl. destruct (open_larry _ _ _ _ Hy Hl) as [_ Hla]. apply bind_ok in Hla as (x & Hx & _).
  unfold prun, lara_setitem. split_and!; [intros e He|intros z0 He|intros g He Hg]; rewrite pbind_get, Hx, pbind_lift_ok, He.
  - by rewrite pbind_lift_err.
  - rewrite pbind_lift_ok. by destruct (decide _).
  - rewrite pbind_lift_ok. by destruct g as [z0| |]; [destruct (Hg z0)|..].
Qed.
Lemma lara_list_error f key y l zs a :
  load f (Some key) = Ok y -> lara_open f key = Ok l -> llabel y !! 0 = Some a ->
  (forall ls, mapM (py_get a) zs = Some ls -> NoDup ls -> lara_getitem f l (XList zs) = Err AttributeError) /\
  ((forall ls, mapM (py_get a) zs = Some ls -> ~ NoDup ls) -> lara_getitem f l (XList zs) = Err IndexError).
Proof.
  intros Hy Hl Ha. destruct (open_larry _ _ _ _ Hy Hl) as [_ Hla]. unfold lara_getitem. rewrite Hla. cbn [mbind res_bind].
  assert (axis_label y 0 = Ok a) as -> by (by apply axis_label_ok). cbn [mbind res_bind]. split.
  - intros ls -> Hn. cbn [mbind res_bind of_opt]. apply py_nodup_spec in Hn. by rewrite Hn.
  - intros H. destruct (mapM (py_get a) zs) as [ls|]; [|done]. cbn [mbind res_bind of_opt]. specialize (H ls eq_refl).
    apply py_nodup_false in H. by rewrite H.
Qed.
Lemma lara_bools_error f key y l bs a :
  load f (Some key) = Ok y -> lara_open f key = Ok l -> llabel y !! 0 = Some a ->
  (forall i, bs !! i = Some true -> length a <= i -> lara_getitem f l (XBools bs) = Err IndexError) /\
  ((forall i, bs !! i = Some true -> i < length a) ->
   lshape y <> [length bs] -> lara_getitem f l (XBools bs) = Err TypeError).
Proof.
  intros Hy Hl Ha. destruct (open_larry _ _ _ _ Hy Hl) as [_ Hla]. unfold lara_getitem. rewrite Hla. cbn [mbind res_bind].
  assert (axis_label y 0 = Ok a) as -> by (by apply axis_label_ok). cbn [mbind res_bind]. split.
  - intros i Hi Hge. destruct (mapM (a !!.) (true_positions bs)) as [ls|] eqn:E; [|done]. exfalso.
    assert (i ∈ true_positions bs) as Hin by (by apply elem_of_true_positions).
    apply mapM_Some in E. apply elem_of_list_lookup in Hin as [k Hk].
    destruct (Forall2_lookup_l _ _ _ k i E Hk) as (x & _ & Hx). apply lookup_lt_Some in Hx. lia.
  - intros Hlt Hsh. destruct (mapM (a !!.) (true_positions bs)) as [ls|] eqn:E.
    + cbn [mbind res_bind of_opt]. by rewrite decide_False.
    + exfalso. apply mapM_None, Exists_exists in E as (i & Hin & E). apply elem_of_true_positions in Hin. apply Hlt in Hin.
      apply lookup_ge_None in E. lia.
Qed.
Lemma open_refused f key : (forall ms, h5_get f key <> Some (NGroup true ms)) -> lara_open f key = Err KeyError.
Proof.
  intros H. unfold lara_open. destruct (h5_get f key) as [[|x|[|] ms]|] eqn:E; try done. by destruct (H ms).
Qed.
