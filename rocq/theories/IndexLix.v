(** Label indexing. *)
From Verif Require Export IndexSet.

(** * One axis *)
Lemma py_index_of_nat_all n ps : Forall (fun p => p < n) ps -> mapM (py_index n) (map Z.of_nat ps) = Some ps.
Proof. induction 1 as [|p ps Hp H IH]; simpl; [done|]. rewrite py_index_nat by done. simpl. by rewrite IH. Qed.
Lemma labels2indices_ok l ls ps : labels2indices l ls = Ok ps -> mapM (l !!.) ps = Some ls.
Proof.
  unfold labels2indices. rewrite of_opt_ok, !mapM_Some. intros H. apply Forall2_flip. eapply Forall2_impl; [exact H|].
  intros x p Hp. by apply index_of_Some in Hp as [? _].
Qed.
Lemma labels2indices_total l ls : (forall x, x ∈ ls -> x ∈ l) -> exists ps, labels2indices l ls = Ok ps.
Proof.
  intros H. unfold labels2indices. assert (is_Some (mapM (fun x => index_of x l) ls)) as [ps ->]; [|simpl; eauto].
  apply mapM_is_Some, Forall_forall. intros x Hx. apply index_of_is_Some. auto.
Qed.
Lemma slice_end_ok y ax l e z :
  valid y -> llabel y !! ax = Some l -> slice_end y ax e = Ok z <-> end_is l e z.
Proof.
  intros Hv Hl. destruct e as [[i|ls]|]; simpl; [naive_solver| |naive_solver].
  assert (Hpa : py_axis y (Z.of_nat ax) = Ok ax) by (apply py_axis_nat; by eapply lookup_lt_Some).
  destruct ls as [|x [|x2 ls]]; simpl.
  - split; [done|]. by intros (? & ? & [=] & _).
  - rewrite bind_ok. setoid_rewrite labelindex_exact; [|done]. split.
    + intros (i & (ax' & l' & Hp & Hl' & Hi) & [= <-]). assert (ax' = ax) as -> by congruence.
      assert (l' = l) as -> by congruence. eauto.
    + intros (x' & i & [= <-] & Hi & ->). exists i. split; [|done]. eauto.
  - split; [done|]. by intros (? & ? & [=] & _).
Qed.
Lemma slicemaker_ok y ax l s s' :
  valid y -> llabel y !! ax = Some l ->
  slicemaker y ax s = Ok s' <-> exists a b, end_is l (l_start s) a /\ end_is l (l_stop s) b /\ s' = Slice a b (l_step s).
Proof.
  intros Hv Hl. unfold slicemaker. rewrite bind_ok. split.
  - intros (a & Ha & H). apply bind_ok in H as (b & Hb & [= <-]). apply (slice_end_ok y ax l) in Ha, Hb; [|done..]. eauto.
  - intros (a & b & Ha & Hb & ->). exists a. split; [by apply (slice_end_ok y ax l)|]. rewrite bind_ok. exists b.
    split; [by apply (slice_end_ok y ax l)|done].
Qed.

Definition lix_keep (l' : list lab) : option (list lab) := if decide (1 < length l') then Some l' else None.
Lemma lix_item_sound y ax l it q ps :
  valid y -> llabel y !! ax = Some l -> lix_item y ax it = Ok q -> mapM (py_index (length l)) q.1 = Some ps ->
  exists l', lix_labels l it l' /\ mapM (l !!.) ps = Some l' /\ q.2 = lix_keep l' /\ mapM (py_get l) q.1 = Some l'.
Proof.
  intros Hv Hl H Hps. unfold lix_item in H. assert (Hax : axis_label y ax = Ok l) by (by apply axis_label_ok).
  assert (Hpg : forall l', mapM (l !!.) ps = Some l' -> mapM (py_get l) q.1 = Some l').
  { intros l' Hm. unfold py_get. rewrite mapM_bind, Hps. done. }
  rewrite Hax in H. cbn [mbind res_bind] in H. destruct it as [z|ls|s].
  - injection H as <-. simpl in *. apply bind_Some in Hps as (p & Hp & Hps). injection Hps as <-.
    assert (is_Some (l !! p)) as [x Hx] by (apply lookup_lt_is_Some; by eapply py_index_lt).
    exists [x]. assert (mapM (l !!.) [p] = Some [x]) by (simpl; by rewrite Hx).
    split_and!; [|done|done|by apply Hpg]. exists x. split; [|done]. unfold py_get. by rewrite Hp.
  - apply bind_ok in H as (ps' & Hps' & [= <-]). simpl in *. apply labels2indices_ok in Hps'.
    rewrite py_index_of_nat_all in Hps by (by eapply mapM_lt_inv). injection Hps as <-. exists ls.
    split_and!; [done| |done|done|by apply Hpg]. intros x Hx. apply mapM_Some in Hps'.
    apply elem_of_list_lookup in Hx as [i Hi]. destruct (Forall2_lookup_r _ _ _ _ _ Hps' Hi) as (p & _ & Hp).
    by eapply elem_of_list_lookup_2.
  - apply bind_ok in H as (s' & Hs' & H). apply (slicemaker_ok y ax l) in Hs' as (a & b & Ha & Hb & ->); [|done|done].
    assert (lshape y !! ax = Some (length l)) as Hsh by (apply valid_axis; eauto). rewrite Hsh in H.
    apply bind_ok in H as (ps' & Hps' & H). cbn [of_opt mbind res_bind] in Hps'. apply bind_ok in H as (l' & Hl' & [= <-]). simpl in *.
    pose proof Hl' as Hl2. apply py_slice_Ok in Hl2 as (ps2 & Hps2 & Hm). assert (ps2 = ps') as -> by congruence.
    rewrite py_index_of_nat_all in Hps by (by eapply mapM_lt_inv). injection Hps as <-. exists l'.
    split_and!; [|done|done|by apply Hpg]. eauto 10.
Qed.
Lemma lix_item_complete y ax l it l' :
  valid y -> llabel y !! ax = Some l -> lix_labels l it l' ->
  exists zs ps, lix_item y ax it = Ok (zs, lix_keep l') /\ mapM (py_index (length l)) zs = Some ps /\ mapM (l !!.) ps = Some l'.
Proof.
  intros Hv Hl H. unfold lix_item. assert (Hax : axis_label y ax = Ok l) by (by apply axis_label_ok).
  rewrite Hax. cbn [mbind res_bind]. destruct it as [z|ls|s]; simpl in H.
  - destruct H as (x & Hx & ->). apply py_get_mod in Hx as (p & Hp & Hx). exists [z], [p]. simpl. rewrite Hp, Hx. done.
  - destruct H as [-> H]. destruct (labels2indices_total l ls H) as [ps Hps]. rewrite Hps. cbn [mbind res_bind].
    apply labels2indices_ok in Hps. eexists _, ps. split; [done|]. split; [|done].
    apply py_index_of_nat_all. by eapply mapM_lt_inv.
  - destruct H as (a & b & Ha & Hb & Hs). assert (slicemaker y ax s = Ok (Slice a b (l_step s))) as -> by (apply (slicemaker_ok y ax l); eauto).
    assert (lshape y !! ax = Some (length l)) as Hsh by (apply valid_axis; eauto). rewrite Hsh. cbn [mbind res_bind of_opt].
    pose proof Hs as (ps & Hps & Hm)%py_slice_Ok. rewrite Hps. cbn [mbind res_bind]. rewrite Hs. cbn [mbind res_bind].
    eexists _, ps. split; [done|]. split; [|done]. apply py_index_of_nat_all. by eapply mapM_lt_inv.
Qed.

(** * All axes *)
Definition blocks (L : list (list lab)) (pss : list (list nat)) (block : list (list lab)) : Prop :=
  Forall3 (fun l ps l' => mapM (l !!.) ps = Some l') L pss block.
Definition lix_pad (n : nat) (items : list litem) : list litem := items ++ replicate (n - length items) lix_full.
Lemma lix_pad_length n items : length items <= n -> length (lix_pad n items) = n.
Proof. intros. unfold lix_pad. rewrite app_length, replicate_length. lia. Qed.

Lemma lix_items_inv y items q :
  valid y -> lix_items y items = Ok q <->
  length items <= lndim y /\ length q = lndim y /\
  forall ax l it e, llabel y !! ax = Some l -> lix_pad (lndim y) items !! ax = Some it -> q !! ax = Some e -> lix_item y ax it = Ok e.
Proof.
  intros Hv. unfold lix_items. case_decide as Hlen; [|split; [done|by intros [? _]]].
  change (items ++ replicate (lndim y - length items) lix_full) with (lix_pad (lndim y) items).
  pose proof (lix_pad_length _ _ Hlen) as Hpl. pose proof (valid_ndim y Hv) as Hnd.
  rewrite (mapR_zip_Forall3 (lix_item y)) by (rewrite seq_length; lia). split.
  - intros H. pose proof (Forall3_lengths _ _ _ _ H) as [H1 H2]. split_and!; [done|lia|].
    intros ax l it e Hl Hit He. refine (Forall3_lookup_lmr' _ _ _ _ ax ax it e H _ Hit He).
    apply lookup_seq_lt. apply lookup_lt_Some in Hl. lia.
  - intros (_ & Hq & H). apply Forall3_of_lookup; [rewrite seq_length; lia|lia|].
    intros i ax it e Hax Hit He. apply lookup_seq in Hax as [-> Hi]. simpl.
    assert (is_Some (llabel y !! i)) as [l Hl] by (apply lookup_lt_is_Some; lia). eauto.
Qed.

Lemma np_ix_ids_inv sh ids pss :
  length sh = length ids -> np_ix_ids sh ids = Ok pss <-> [] ∉ ids /\ Forall3 (fun n zs ps => mapM (py_index n) zs = Some ps) sh ids pss.
Proof.
  intros Hl. unfold np_ix_ids. rewrite decide_False by lia. destruct (decide ([] ∈ ids)) as [H0|H0]; [by split; [|intros [? ?]]|].
  rewrite (mapR_zip_Forall3 (fun n zs => of_opt IndexError (mapM (py_index n) zs))) by done.
  split; [intros H; split; [done|]|intros [_ H]]; (eapply Forall3_impl; [exact H|]); intros n zs ps; by rewrite of_opt_ok.
Qed.
Lemma mapM_py_nil (l l' : list lab) zs : mapM (py_get l) zs = Some l' -> zs = [] <-> l' = [].
Proof.
  intros H. apply mapM_Some_lookup in H as [H _]. split; intros ->; [by destruct l'|by destruct zs].
Qed.

Lemma lix_items_sound y items q pss :
  valid y -> lix_items y items = Ok q -> np_ix_ids (lshape y) q.*1 = Ok pss ->
  exists block, lix_all (llabel y) items block /\ blocks (llabel y) pss block /\ q.*2 = lix_keep <$> block /\
    Forall3 (fun l e l' => mapM (py_get l) e.1 = Some l') (llabel y) q block /\ Forall (fun l => l <> []) block.
Proof.
  intros Hv Hq Hp. apply lix_items_inv in Hq as (Hlen & Hql & Hq); [|done].
  pose proof (valid_ndim y Hv) as Hnd.
  rewrite np_ix_ids_inv in Hp by (rewrite fmap_length; unfold lndim, lshape in *; lia). destruct Hp as [Hne Hp].
  pose proof (Forall3_lengths _ _ _ _ Hp) as [Hp1 Hp2]. rewrite fmap_length in Hp2.
  pose proof (lix_pad_length _ _ Hlen) as Hpl.
  assert (HH : forall L its qq pp, length L = length its -> length its = length qq -> length qq = length pp ->
    (forall i l it e ps, L !! i = Some l -> its !! i = Some it -> qq !! i = Some e -> pp !! i = Some ps ->
       exists l', lix_labels l it l' /\ mapM (l !!.) ps = Some l' /\ e.2 = lix_keep l' /\ mapM (py_get l) e.1 = Some l') ->
    exists block, Forall3 lix_labels L its block /\ blocks L pp block /\ qq.*2 = lix_keep <$> block /\
      Forall3 (fun l e l' => mapM (py_get l) e.1 = Some l') L qq block).
  { clear. intros L. induction L as [|l L IH]; intros [|it its] [|e qq] [|ps pp] H1 H2 H3 H; try done.
    { exists []. split_and!; constructor. }
    destruct (H 0 l it e ps eq_refl eq_refl eq_refl eq_refl) as (l' & G1 & G2 & G3 & G4).
    destruct (IH its qq pp) as (block & G5 & G6 & G7 & G8); [by injection H1|by injection H2|by injection H3| |].
    { intros i. exact (H (S i)). }
    exists (l' :: block). split_and!; [by constructor|by constructor|csimpl; by rewrite G3, G7|by constructor]. }
  destruct (HH (llabel y) (lix_pad (lndim y) items) q pss) as (block & G1 & G2 & G3 & G4).
  - lia.
  - lia.
  - lia.
  - intros i l it e ps Hl Hit He Hps. apply (lix_item_sound y i l it e ps Hv Hl).
    + by eapply Hq.
    + assert (Hsh : lshape y !! i = Some (length l)) by (apply valid_axis; eauto).
      refine (Forall3_lookup_lmr' _ _ _ _ i _ _ _ Hp Hsh _ Hps). by rewrite list_lookup_fmap, He.
  - exists block. split_and!; [|done|done|done|].
    + split; [by rewrite Hnd|]. by rewrite Hnd.
    + clear -Hne G4. induction G4 as [|l e l' L qq bl He H IH]; [done|]. rewrite fmap_cons, not_elem_of_cons in Hne. destruct Hne as [H1 H2].
      constructor; [|by apply IH]. intros ->. apply H1. symmetry. by eapply mapM_py_nil.
Qed.
Lemma lix_items_complete y items block :
  valid y -> lix_all (llabel y) items block -> Forall (fun l => l <> []) block ->
  exists q pss, lix_items y items = Ok q /\ np_ix_ids (lshape y) q.*1 = Ok pss /\ blocks (llabel y) pss block.
Proof.
  intros Hv [Hlen H] Hne. pose proof (valid_ndim y Hv) as Hnd. rewrite Hnd in *.
  change (items ++ replicate (lndim y - length items) lix_full) with (lix_pad (lndim y) items) in H.
  assert (HH : forall k L its bl, Forall3 lix_labels L its bl -> (forall i l, L !! i = Some l -> llabel y !! (k + i) = Some l) ->
    exists qq pp, length qq = length L /\ (forall i it e, its !! i = Some it -> qq !! i = Some e -> lix_item y (k + i) it = Ok e) /\
      Forall3 (fun n zs ps => mapM (py_index n) zs = Some ps) (length <$> L) qq.*1 pp /\ blocks L pp bl).
  { intros k L its bl HL. revert k. induction HL as [|l it l' L its bl Hll HL IH]; intros k Hk.
    { exists [], []. split_and!; try done; constructor. }
    destruct (lix_item_complete y k l it l' Hv ltac:(rewrite <-(Nat.add_0_r k); by apply Hk) Hll) as (zs & ps & G1 & G2 & G3).
    destruct (IH (S k)) as (qq & pp & G4 & G5 & G6 & G7).
    { intros i l0 Hi. rewrite <-(Hk (S i) l0 Hi). f_equal. lia. }
    exists ((zs, lix_keep l') :: qq), (ps :: pp). split_and!; [simpl; by f_equal| |csimpl; by constructor|by constructor].
    intros [|i] it0 e; simpl; [by intros [= <-] [= <-]; rewrite Nat.add_0_r|]. intros Hi He.
    rewrite <-(G5 i it0 e Hi He). f_equal. lia. }
  destruct (HH 0 _ _ _ H) as (q & pss & G1 & G2 & G3 & G4); [done|]. exists q, pss. split_and!; [| |done].
  - apply lix_items_inv; [done|]. split_and!; [done|lia|]. intros ax l it e _ Hit He. by apply G2.
  - apply np_ix_ids_inv; [rewrite fmap_length, G1, Hnd; done|]. rewrite <-(valid_shape y Hv). split; [|done].
    clear -G3 G4 Hne. revert G3 block Hne G4. generalize (llabel y) as L, (q.*1) as ids, pss as pp. intros L ids pp G3.
    remember (length <$> L) as sh eqn:E. revert L E. induction G3 as [|n zs ps sh ids pp Hz G3 IH]; intros L E block Hne G4; [apply not_elem_of_nil|].
    inversion G4 as [|l ps' l' L' pp' bl Hl G4']; simplify_eq/=. apply Forall_cons in Hne as [Hl' Hne].
    apply not_elem_of_cons. split; [|by eapply IH]. intros <-. simpl in Hz. injection Hz as <-. by injection Hl as <-.
Qed.

(** * Reading *)
Lemma blocks_length L pss block : blocks L pss block -> length <$> pss = length <$> block.
Proof.
  induction 1 as [|l ps l' L pss block Hm H IH]; [done|]. csimpl. rewrite IH. f_equal.
  by apply mapM_Some_lookup in Hm as [-> _].
Qed.
Lemma block_larry y pss block :
  valid y -> blocks (llabel y) pss block -> Forall NoDup block ->
  exists b, outer_take (larr y) pss = Some b /\
  let w := Larry (Nda (ldtype y) b) block in
  valid w /\ forall ls, in_grid block ls -> cell w ls = cell y ls.
Proof.
  intros Hv Hb HN.
  assert (Hmap : forall idx' ls', labels_at block idx' ls' -> exists idx, lookup_all pss idx' = Some idx /\ labels_at (llabel y) idx (id ls')).
  { intros idx' ls'. by apply lookup_all_labels. }
  unfold outer_take. rewrite (blocks_length _ _ _ Hb). destruct (regrid_is_Some y block (lookup_all pss) id Hv Hmap) as [b Hg].
  exists b. split; [done|].
  assert (Hne : block <> []).
  { intros ->. inversion Hb. destruct Hv as (_ & ? & _). by subst. }
  destruct (regrid y block (lookup_all pss) id b Hv Hne HN Hg Hmap) as [Hvz Hc]. split; [exact Hvz|]. exact Hc.
Qed.

Lemma single_labels block : sel_labels (drop_single <$> block) = filter (fun l => length l <> 1) block.
Proof.
  induction block as [|l block IH]; [done|]. rewrite filter_cons. csimpl.
  destruct l as [|x [|x2 l]]; [rewrite decide_True by done|rewrite decide_False by (simpl; lia)|rewrite decide_True by (simpl; lia)];
    unfold sel_labels in *; simpl; rewrite <-?IH; done.
Qed.
Lemma single_full block ls :
  in_grid block ls -> sel_full (drop_single <$> block) (drop_ones block ls) = Some ls.
Proof.
  unfold in_grid. induction 1 as [|x l ls block Hx H IH]; [done|].
  rewrite drop_ones_cons. csimpl. destruct l as [|x1 [|x2 l]].
  - by apply elem_of_nil in Hx.
  - rewrite decide_True by done. simpl. apply elem_of_list_singleton in Hx as ->. by rewrite IH.
  - rewrite decide_False by done. simpl. by rewrite IH.
Qed.
Lemma single_grid block ls :
  in_grid (sel_labels (drop_single <$> block)) ls -> exists ls0, in_grid block ls0 /\ ls = drop_ones block ls0.
Proof.
  unfold in_grid. revert ls. induction block as [|l block IH]; intros ls H; simpl in H.
  { inversion H; subst. exists []. split; [constructor|done]. }
  destruct l as [|x [|x2 l]].
  - unfold sel_labels in H. simpl in H. inversion H as [|a ? ls' ? Ha H2]; subst. by apply elem_of_nil in Ha.
  - destruct (IH ls) as (ls0 & H0 & ->); [exact H|]. exists (x :: ls0). split; [constructor; [left|done]|].
    rewrite drop_ones_cons. by rewrite decide_True.
  - unfold sel_labels in H. simpl in H. inversion H as [|a ? ls' ? Ha H2]; subst. destruct (IH ls') as (ls0 & H0 & ->); [exact H2|].
    exists (a :: ls0). split; [by constructor|]. rewrite drop_ones_cons. by rewrite decide_False.
Qed.

Lemma somes_keep block : somes (lix_keep <$> block) = filter (fun l => 1 < length l) block.
Proof.
  induction block as [|l block IH]; [done|]. rewrite filter_cons. unfold somes in *. simpl. unfold lix_keep at 1.
  destruct (decide (1 < length l)); simpl; [f_equal|]; exact IH.
Qed.
Lemma filter_lens (block : list (list lab)) :
  length (filter (fun l => 1 < length l) block) = length (filter (fun l => length l <> 1) block) ->
  filter (fun l => 1 < length l) block = filter (fun l => length l <> 1) block /\ Forall (fun l => 0 < length l) block.
Proof.
  assert (Hle : forall bl : list (list lab), length (filter (fun l => 1 < length l) bl) <= length (filter (fun l => length l <> 1) bl)).
  { induction bl as [|l bl IH]; [done|]. rewrite !filter_cons. repeat case_decide; simpl; lia. }
  induction block as [|l block IH]; [done|]. rewrite !filter_cons. specialize (Hle block).
  destruct (decide (1 < length l)) as [H1|H1], (decide (length l <> 1)) as [H2|H2]; simpl; intros H; try lia.
  - destruct IH as [-> ?]; [lia|]. split; [done|]. constructor; [lia|done].
  - destruct IH as [-> ?]; [lia|]. split; [done|]. constructor; [lia|done].
Qed.
Lemma NoDup_short (l : list lab) : length l <= 1 -> NoDup l.
Proof. destruct l as [|x [|]]; simpl; intros; [constructor|apply NoDup_singleton|lia]. Qed.
Lemma nodup_filter (block : list (list lab)) : Forall NoDup (filter (fun l => 1 < length l) block) -> Forall NoDup block.
Proof.
  rewrite !Forall_forall. intros H l Hl. destruct (decide (1 < length l)) as [H1|H1]; [|apply NoDup_short; lia].
  apply H. apply elem_of_list_filter. done.
Qed.

(** The squeezed block. *)
Lemma block_squeezed y pss block b :
  valid y -> blocks (llabel y) pss block -> Forall NoDup block -> outer_take (larr y) pss = Some b ->
  shape (np_squeeze b) = length <$> sel_labels (drop_single <$> block) /\
  (sel_labels (drop_single <$> block) <> [] ->
     restricted y (drop_single <$> block) (Larry (Nda (ldtype y) (np_squeeze b)) (sel_labels (drop_single <$> block)))) /\
  (sel_labels (drop_single <$> block) = [] ->
     exists v full, sel_full (drop_single <$> block) [] = Some full /\ cell y full = Some v /\ aget (np_squeeze b) [] = Some v).
Proof.
  intros Hv Hb HN Ho. destruct (block_larry y pss block Hv Hb HN) as (b' & Hb' & Hvw & Hcw).
  rewrite Ho in Hb'. injection Hb' as <-. set (w := Larry (Nda (ldtype y) b) block) in *.
  destruct (squeeze_spec w Hvw) as (Hl & Hd & Hval & Hc).
  assert (Hsq : squeeze w = Larry (Nda (ldtype y) (np_squeeze b)) (sel_labels (drop_single <$> block))).
  { change (llabel w) with block in Hl. rewrite single_labels, <-Hl. done. }
  assert (Hss : shape (np_squeeze b) = length <$> sel_labels (drop_single <$> block)).
  { rewrite single_labels. exact (squeeze_shape_eq w Hvw). }
  split; [done|]. rewrite <-Hsq. split.
  - intros Hne. assert (Hvs : valid (squeeze w)).
    { apply Hval. rewrite single_labels in Hne. destruct (filter _ block) as [|l r] eqn:E; [done|].
      exists l. assert (Hin : l ∈ l :: r) by left. rewrite <-E in Hin. apply elem_of_list_filter in Hin as [? ?]. done. }
    split; [done|]. split; [done|]. split; [by rewrite Hl, single_labels|]. intros ls Hls. rewrite Hl in Hls.
    change (llabel w) with block in Hls. rewrite <-single_labels in Hls. apply single_grid in Hls as (ls0 & Hg & ->).
    exists ls0. split; [by apply single_full|]. transitivity (cell w ls0); [exact (Hc ls0 Hg)|by apply Hcw].
  - intros Hnil. assert (Hg : in_grid block (map (fun l => match l with x :: _ => x | [] => LInt 0 end) block)).
    { rewrite single_labels in Hnil. clear -Hnil. induction block as [|l block IH]; [constructor|].
      rewrite filter_cons in Hnil. destruct (decide (length l <> 1)) as [|H1]; [done|]. constructor; [|by apply IH].
      destruct l as [|x [|]]; simpl in *; try lia. by left. }
    set (full := map _ block) in *. apply (valid_cell_grid w full Hvw) in Hg as Hsome. destruct Hsome as [v Hvv].
    exists v, full. pose proof (single_full block full Hg) as Hf.
    assert (drop_ones block full = []) as Hdn.
    { assert (Hlen : forall (bl : list (list lab)) (f : list lab), filter (fun l => length l <> 1) bl = [] -> drop_ones bl f = []).
      { clear. induction bl as [|l bl IH]; intros [|x f] H; try done. rewrite filter_cons in H. rewrite drop_ones_cons.
        destruct (decide (length l <> 1)); [done|]. rewrite decide_True by lia. by apply IH. }
      apply Hlen. by rewrite <-single_labels. }
    rewrite Hdn in Hf. split; [done|]. split; [by rewrite <-Hcw|].
    pose proof (Hc full Hg) as Hcf. change (llabel w) with block in Hcf. rewrite Hdn, Hvv in Hcf.
    unfold cell in Hcf. rewrite Hsq in Hcf. rewrite Hnil in Hcf. exact Hcf.
Qed.

Lemma lix_tuple_sound_full y items g :
  valid y -> ~ 0 ∈ lshape y -> lix_get y (LxTuple items) = Ok g ->
  exists block, lix_all (llabel y) items block /\ Forall NoDup block /\ Forall (fun l => l <> []) block /\
    picked y (drop_single <$> block) g.
Proof.
  intros Hv H0 H. unfold lix_get in H.
  destruct (decide (lshape y = [0])) as [E|_]; [exfalso; apply H0; rewrite E; left|].
  destruct (decide (0 ∈ lshape y)) as [|_]; [done|]. apply bind_ok in H as (q & Hq & H). apply bind_ok in H as (b & Hb & H).
  unfold np_ix in Hb. apply bind_ok in Hb as (pss & Hp & Hb). apply of_opt_ok in Hb. change (shape (larr y)) with (lshape y) in Hp.
  destruct (lix_items_sound y items q pss Hv Hq Hp) as (block & Hall & Hbl & Hq2 & _ & _). exists block. split; [done|].
  cbn [mbind res_bind] in H. rewrite Hq2, somes_keep in H.
  assert (Hsb : shape b = length <$> block).
  { apply gather_Some in Hb as (-> & _). by apply (blocks_length (llabel y)). }
  assert (Hfs : shape (np_squeeze b) = length <$> filter (fun l => length l <> 1) block).
  { unfold np_squeeze. simpl. rewrite Hsb. clear. induction block as [|l block IH]; [done|]. csimpl. rewrite !filter_cons.
    destruct (decide (length l <> 1)); csimpl; by rewrite IH. }
  destruct (shape (np_squeeze b)) as [|n sh] eqn:Es.
  - assert (Hnil : filter (fun l => length l <> 1) block = []) by (destruct (filter _ block); done).
    assert (HN : Forall NoDup block).
    { apply Forall_forall. intros l Hl. apply NoDup_short. destruct (decide (length l <> 1)) as [H1|H1]; [|lia].
      assert (Hin : l ∈ filter (fun l => length l <> 1) block) by (by apply elem_of_list_filter). rewrite Hnil in Hin. by apply elem_of_nil in Hin. }
    destruct (block_squeezed y pss block b Hv Hbl HN Hb) as (_ & _ & Hval). rewrite single_labels in Hval.
    destruct (Hval Hnil) as (v & full & Hf & Hc & Hg). rewrite Hg in H. simpl in H. injection H as <-. simpl.
    split; [done|]. split.
    { apply Forall_forall. intros l Hl ->.
      assert (Hin : [] ∈ filter (fun l => length l <> 1) block) by (by apply elem_of_list_filter). rewrite Hnil in Hin. by apply elem_of_nil in Hin. }
    split; [by rewrite single_labels|]. eauto.
  - apply bind_ok in H as (z & Hz & [= <-]). apply make_some_ok in Hz as (-> & Hne & Hlens & HNf).
    unfold nd_shape in Hlens. simpl nd_arr in Hlens. rewrite Es, Hfs in Hlens.
    destruct (filter_lens block) as [Hfe Hne0]. { apply (f_equal length) in Hlens. by rewrite !fmap_length in Hlens. }
    apply nodup_filter in HNf as HN.
    destruct (block_squeezed y pss block b Hv Hbl HN Hb) as (_ & Hres & _). rewrite single_labels in Hres.
    split; [done|]. split.
    { eapply Forall_impl; [exact Hne0|]. intros [|]; simpl; [lia|done]. }
    simpl. rewrite Hfe. apply Hres. by rewrite <-Hfe.
Qed.
Lemma lix_tuple_sound y items g :
  valid y -> ~ 0 ∈ lshape y -> lix_get y (LxTuple items) = Ok g ->
  exists block, lix_all (llabel y) items block /\ picked y (drop_single <$> block) g.
Proof. intros Hv H0 H. destruct (lix_tuple_sound_full y items g Hv H0 H) as (block & ? & _ & _ & ?). eauto. Qed.
Lemma lix_labels_fun l it l1 l2 : NoDup l -> lix_labels l it l1 -> lix_labels l it l2 -> l1 = l2.
Proof.
  intros Hnd. destruct it as [z|ls|s]; simpl.
  - intros (x & Hx & ->) (x' & Hx' & ->). congruence.
  - by intros [-> _] [-> _].
  - intros (a & b & Ha & Hb & H1) (a' & b' & Ha' & Hb' & H2).
    assert (He : forall e z1 z2, end_is l e z1 -> end_is l e z2 -> z1 = z2).
    { intros [[i|ls]|] z1 z2; simpl; [congruence| |congruence]. intros (x & i & -> & Hi & ->) (x' & i' & [= <-] & Hi' & ->).
      f_equal. f_equal. by eapply NoDup_lookup. }
    rewrite (He _ _ _ Ha Ha'), (He _ _ _ Hb Hb') in H1. congruence.
Qed.
Lemma lix_all_fun L items b1 b2 : Forall NoDup L -> lix_all L items b1 -> lix_all L items b2 -> b1 = b2.
Proof.
  intros HN [_ H1] [_ H2]. revert b2 H2. induction H1 as [|l it l' L its bl Hl H IH]; intros b2 H2; inversion H2; subst; [done|].
  apply Forall_cons in HN as [? ?]. f_equal; [by eapply lix_labels_fun|auto].
Qed.
Lemma lix_tuple_complete y items block :
  valid y -> ~ 0 ∈ lshape y -> lix_all (llabel y) items block -> Forall NoDup block -> Forall (fun l => l <> []) block ->
  exists g, lix_get y (LxTuple items) = Ok g /\ picked y (drop_single <$> block) g.
Proof.
  intros Hv H0 Hall HN Hne. assert (Hok : exists g, lix_get y (LxTuple items) = Ok g).
  { unfold lix_get. destruct (decide (lshape y = [0])) as [E|_]; [exfalso; apply H0; rewrite E; left|].
    rewrite (decide_False (P := 0 ∈ lshape y)) by done.
    destruct (lix_items_complete y items block Hv Hall Hne) as (q & pss & Hq & Hp & Hbl).
    destruct (lix_items_sound y items q pss Hv Hq Hp) as (block2 & _ & Hbl2 & Hq2 & _).
    assert (block2 = block) as ->.
    { clear -Hbl Hbl2. revert block2 Hbl2. induction Hbl as [|l ps l' L pss block Hm H IH]; intros block2 H2; inversion H2; subst; [done|].
      f_equal; [congruence|auto]. }
    rewrite Hq. cbn [mbind res_bind]. unfold np_ix. change (shape (larr y)) with (lshape y). rewrite Hp. cbn [mbind res_bind].
    destruct (block_larry y pss block Hv Hbl HN) as (b & Hb & _). rewrite Hb. cbn [mbind res_bind of_opt].
    destruct (block_squeezed y pss block b Hv Hbl HN Hb) as (Hs & Hres & Hval). rewrite Hs.
    destruct (sel_labels (drop_single <$> block)) as [|l0 r] eqn:E.
    - destruct (Hval eq_refl) as (v & full & _ & _ & Hg). csimpl. rewrite Hg. simpl. eauto.
    - csimpl. rewrite Hq2, somes_keep.
      assert (Hfe : filter (fun l => 1 < length l) block = l0 :: r).
      { rewrite <-E, single_labels. clear -Hne. induction Hne as [|l block Hl H IH]; [done|]. rewrite !filter_cons, IH.
        destruct l as [|x l]; [done|]. simpl. repeat case_decide; try done; lia. }
      rewrite Hfe. assert (make (Nda (ldtype y) (np_squeeze b)) (Some (l0 :: r)) = Ok (Larry (Nda (ldtype y) (np_squeeze b)) (l0 :: r))) as ->; [|simpl; eauto].
      apply make_some_ok. split_and!; [done|done|by rewrite <-Hs|].
      rewrite <-Hfe. apply Forall_forall. intros l Hl. apply elem_of_list_filter in Hl as [_ Hl]. rewrite Forall_forall in HN. by apply HN. }
  destruct Hok as [g Hg]. exists g. split; [done|].
  destruct (lix_tuple_sound y items g Hv H0 Hg) as (block2 & Hall2 & Hp).
  assert (block2 = block) as ->; [|done]. eapply lix_all_fun; [by apply valid_nodup|done|done].
Qed.

(** * Indices that name the first axis only *)
Lemma lix_full_labels l l' : lix_labels l lix_full l' <-> l' = l.
Proof.
  simpl. split.
  - intros (a & b & -> & -> & H). rewrite py_slice_all in H. by injection H.
  - intros ->. exists None, None. split_and!; [done|done|apply py_slice_all].
Qed.
Lemma lix_all_single l L part block :
  lix_all (l :: L) [part] block <-> exists l', block = l' :: L /\ lix_labels l part l'.
Proof.
  assert (Hw : forall L bl, Forall3 lix_labels L (replicate (length L) lix_full) bl <-> bl = L).
  { clear. induction L as [|l L IH]; intros bl; simpl; split.
    - intros H. by inversion H.
    - intros ->. constructor.
    - intros H. inversion H as [|? ? l' ? ? bl' Hl H2]; subst. apply lix_full_labels in Hl as ->. f_equal. by apply IH.
    - intros ->. constructor; [by apply lix_full_labels|by apply IH]. }
  unfold lix_all. simpl. rewrite Nat.sub_0_r. split.
  - intros [_ H]. inversion H as [|? ? l' ? ? bl' Hl H2]; subst. apply Hw in H2 as ->. eauto.
  - intros (l' & -> & Hl). split; [lia|]. constructor; [done|by apply Hw].
Qed.

Definition lix_sub (y : larry) (ix : lix_index) : res subscript :=
  match ix with
  | LxLabels ls =>
      l ← axis_label y 0; ps ← labels2indices l ls;
      Ok (match ps with [p] => XInt (Z.of_nat p) | _ => XList (Z.of_nat <$> ps) end)
  | LxSlice s => s ← slicemaker y 0 s; Ok (XSlice s)
  | LxInt z => Ok (XInt z)
  | LxTuple items => Err IndexError
  end.
Definition first_only (ix : lix_index) : Prop := match ix with LxTuple _ => False | _ => True end.
Lemma lix_get_sub y ix : first_only ix -> ~ 0 ∈ lshape y -> lix_get y ix = (s ← lix_sub y ix; larry_getitem y s).
Proof.
  intros Hf H0. unfold lix_get. rewrite decide_False; [|intros E; apply H0; rewrite E; left].
  rewrite decide_False by done. destruct ix as [z|ls|s|items]; cbn [lix_sub]; try done.
  - destruct (axis_label y 0) as [l|e]; cbn [mbind res_bind]; [|done]. destruct (labels2indices l ls) as [ps|e]; cbn [mbind res_bind]; [|done].
    destruct ps as [|p [|p2 ps]]; done.
  - destruct (slicemaker y 0 s); done.
Qed.
Lemma lix_set_sub y ix v : first_only ix -> ~ 0 ∈ lshape y -> lix_set y ix v = (s ← lix_sub y ix; larry_setitem y s v).
Proof.
  intros Hf H0. unfold lix_set. rewrite decide_False; [|intros E; apply H0; rewrite E; left].
  rewrite decide_False by done. destruct ix as [z|ls|s|items]; cbn [lix_sub]; try done.
  - destruct (axis_label y 0) as [l|e]; cbn [mbind res_bind]; [|done]. destruct (labels2indices l ls) as [ps|e]; cbn [mbind res_bind]; [|done].
    destruct ps as [|p [|p2 ps]]; done.
  - destruct (slicemaker y 0 s); done.
Qed.

Lemma sel_first ix l' L s :
  first_only ix -> lix_sel ix [l'] = [s] -> lix_sel ix (l' :: L) = s :: (Among <$> L).
Proof. destruct ix; simpl; intros ? [= <-]; try done; by rewrite drop_0. Qed.
Lemma py_get_of_nat {A} (l : list A) ps l' :
  mapM (l !!.) ps = Some l' -> Forall2 (fun z x => py_get l z = Some x) (Z.of_nat <$> ps) l'.
Proof.
  rewrite mapM_Some. induction 1 as [|p x ps l' Hp H IH]; csimpl; constructor; [|done].
  unfold py_get. rewrite py_index_nat by (by eapply lookup_lt_Some). done.
Qed.

Lemma lix_sub_sound y l L ix sub :
  valid y -> llabel y = l :: L -> lix_sub y ix = Ok sub ->
  exists it, index_items sub = [it] /\ not_larry it /\ (forall items, sub <> XTuple items) /\
  forall s, selects l it s -> exists l', lix_labels l (match ix with LxInt z => LInt1 z | LxLabels ls => LLabels ls | LxSlice s => LSl s | LxTuple _ => lix_full end) l' /\ lix_sel ix [l'] = [s].
Proof.
  intros Hv Hl H. assert (Hax : axis_label y 0 = Ok l) by (apply axis_label_ok; by rewrite Hl).
  destruct ix as [z|ls|sl|items]; simpl in H; [| | |done].
  - injection H as <-. exists (IInt z). split_and!; [done..|]. intros [x|l'] Hs; simpl in Hs; [|done].
    exists [x]. split; [|done]. simpl. eauto.
  - rewrite Hax in H. cbn [mbind res_bind] in H. apply bind_ok in H as (ps & Hps & [= <-]). apply labels2indices_ok in Hps.
    assert (Hin : forall x, x ∈ ls -> x ∈ l).
    { intros x Hx. apply mapM_Some in Hps. apply elem_of_list_lookup in Hx as [i Hi].
      destruct (Forall2_lookup_r _ _ _ _ _ Hps Hi) as (p & _ & Hp). by eapply elem_of_list_lookup_2. }
    pose proof (py_get_of_nat _ _ _ Hps) as HF.
    destruct ps as [|p [|p2 ps]].
    + exists (IList []). split_and!; [done..|]. intros [x|l'] Hs; simpl in Hs; [done|]. inversion Hs; subst.
      injection Hps as <-. exists []. split; [simpl; done|done].
    + exists (IInt (Z.of_nat p)). split_and!; [done..|]. intros [x|l'] Hs; simpl in Hs; [|done].
      inversion HF as [|? x' ? ls' Hx HF2]; subst. inversion HF2; subst. rewrite Hs in Hx. injection Hx as <-.
      exists [x]. split; [|done]. simpl. split; [done|]. exact Hin.
    + exists (IList (Z.of_nat <$> p :: p2 :: ps)). split_and!; [done..|]. intros [x|l'] Hs; [done|].
      assert (l' = ls) as ->.
      { assert (Hs' : Forall2 (fun z x => py_get l z = Some x) (Z.of_nat <$> p :: p2 :: ps) l') by exact Hs.
        clear -Hs' HF. revert l' Hs'. induction HF as [|z x zs xs Hz HF IH]; intros l' H; inversion H; subst; [done|].
        f_equal; [congruence|auto]. }
      exists ls. split; [simpl; done|]. apply Forall2_length in HF. rewrite fmap_length in HF. simpl in HF.
      destruct ls as [|? [|? ls]]; simpl in HF; try lia. done.
  - apply bind_ok in H as (s & Hs & [= <-]). apply (slicemaker_ok y 0 l) in Hs as (a & b & Ha & Hb & ->); [|done|by rewrite Hl].
    exists (ISlice (Slice a b (l_step sl))). split_and!; [done..|]. intros [x|l'] Hs; simpl in Hs; [done|].
    exists l'. split; [|done]. simpl. eauto.
Qed.
Lemma lix_sub_complete y l L ix l' :
  valid y -> llabel y = l :: L -> first_only ix ->
  lix_labels l (match ix with LxInt z => LInt1 z | LxLabels ls => LLabels ls | LxSlice s => LSl s | LxTuple _ => lix_full end) l' ->
  exists sub it s, lix_sub y ix = Ok sub /\ index_items sub = [it] /\ not_larry it /\ (forall items, sub <> XTuple items) /\
    lix_sel ix [l'] = [s] /\ selects l it s.
Proof.
  intros Hv Hl Hf H. assert (Hax : axis_label y 0 = Ok l) by (apply axis_label_ok; by rewrite Hl).
  destruct ix as [z|ls|sl|items]; simpl in H; [| | |done].
  - destruct H as (x & Hx & ->). exists (XInt z), (IInt z), (At x). done.
  - destruct H as [-> Hin]. destruct (labels2indices_total l ls Hin) as [ps Hps]. cbn [lix_sub]. rewrite Hax. cbn [mbind res_bind].
    rewrite Hps. cbn [mbind res_bind]. apply labels2indices_ok in Hps. pose proof (py_get_of_nat _ _ _ Hps) as HF.
    destruct ps as [|p [|p2 ps]].
    + inversion HF; subst. exists (XList []), (IList []), (Among []). done.
    + inversion HF as [|? x' ? ls' Hx HF2]; subst. inversion HF2; subst.
      exists (XInt (Z.of_nat p)), (IInt (Z.of_nat p)), (At x'). done.
    + eexists _, (IList (Z.of_nat <$> p :: p2 :: ps)), (Among ls). split_and!; try done.
      apply Forall2_length in HF. rewrite fmap_length in HF. simpl in HF. destruct ls as [|? [|? ls]]; simpl in HF; try lia. done.
  - destruct H as (a & b & Ha & Hb & Hs). exists (XSlice (Slice a b (l_step sl))), (ISlice (Slice a b (l_step sl))), (Among l').
    split_and!; try done. cbn [lix_sub]. assert (slicemaker y 0 sl = Ok (Slice a b (l_step sl))) as ->; [|done].
    apply (slicemaker_ok y 0 l); [done|by rewrite Hl|eauto].
Qed.

Lemma single_joined it : joined [it] \/ list_first [it].
Proof. left. intros i j k a b c Hijk _ Hj Hk. apply lookup_lt_Some in Hk. simpl in Hk. lia. Qed.
Lemma single_one_list it : one_list [it].
Proof. intros i j a b Hi Hj _ _. apply lookup_lt_Some in Hi, Hj. simpl in *. lia. Qed.
Lemma not_larry_item_ok it : not_larry it -> item_ok it.
Proof. by destruct it. Qed.
Lemma first_complete y sub : (forall items, sub <> XTuple items) -> complete y sub.
Proof. destruct sub; try done. intros H. by destruct (H items). Qed.
Lemma first_parts ix : first_only ix ->
  lix_parts ix = [match ix with LxInt z => LInt1 z | LxLabels ls => LLabels ls | LxSlice s => LSl s | LxTuple _ => lix_full end].
Proof. by destruct ix. Qed.
Lemma label_cons y : valid y -> exists l L, llabel y = l :: L.
Proof. intros (_ & Hne & _). destruct (llabel y) as [|l L]; [done|eauto]. Qed.

(** * Label indexing *)
Theorem lix_get_sound y ix g :
  valid y -> ~ 0 ∈ lshape y -> lix_get y ix = Ok g ->
  exists block, lix_block y ix block /\ picked y (lix_sel ix block) g.
Proof.
  intros Hv H0 H. destruct ix as [z|ls|sl|items].
  all: try (by apply lix_tuple_sound).
  all: rewrite lix_get_sub in H by done; apply bind_ok in H as (sub & Hsub & H);
    destruct (label_cons y Hv) as (l & L & Hl);
    destruct (lix_sub_sound y l L _ sub Hv Hl Hsub) as (it & Hit & Hnl & Hnt & Hsel);
    destruct (getitem_sound y sub g Hv) as (ss & Hss & Hp);
    [rewrite Hit; by constructor; [apply not_larry_item_ok|]|rewrite Hit; apply single_joined|by apply first_complete|done|];
    rewrite Hit, Hl in Hss; apply selects_single_inv in Hss as (s & -> & Hs);
    destruct (Hsel s Hs) as (l' & Hl' & Hls); exists (l' :: L); (split;
    [unfold lix_block; rewrite Hl, first_parts by done; apply lix_all_single; eauto|
     erewrite (sel_first _ l' L s) by done; done]).
Qed.

Lemma lix_get_complete y ix block :
  valid y -> ~ 0 ∈ lshape y -> lix_block y ix block ->
  Forall NoDup block -> (match ix with LxTuple _ => Forall (fun l => l <> []) block | _ => True end) ->
  exists g, lix_get y ix = Ok g /\ picked y (lix_sel ix block) g.
Proof.
  intros Hv H0 Hb HN Hne. destruct ix as [z|ls|sl|items].
  all: try (by apply lix_tuple_complete).
  all: destruct (label_cons y Hv) as (l & L & Hl); unfold lix_block in Hb; rewrite Hl, first_parts in Hb by done;
    apply lix_all_single in Hb as (l' & -> & Hl');
    match goal with |- context [lix_get _ ?q] => destruct (lix_sub_complete y l L q l' Hv Hl I Hl') as (sub & it & s & Hsub & Hit & Hnl & Hnt & Hls & Hs) end;
    rewrite lix_get_sub by done; rewrite Hsub; cbn [mbind res_bind];
    erewrite (sel_first _ l' L s) by done;
    apply (getitem_complete y sub); [done|rewrite Hit; by constructor; [apply not_larry_item_ok|]|rewrite Hit; apply single_joined|rewrite Hit; apply single_one_list|by apply first_complete
     |rewrite Hit, Hl; by apply selects_single|].
  all: apply Forall_cons in HN as [HN1 HN2]; simpl in Hls; injection Hls as <-; unfold sel_labels; simpl.
  all: try (destruct l' as [|x [|x2 l']]; simpl).
  all: try (constructor; [done|]).
  all: change (Forall NoDup (sel_labels (Among <$> L))); by rewrite sel_labels_among.
Qed.

(** Nothing else can be read. *)
Lemma lix_get_only y ix block g :
  valid y -> ~ 0 ∈ lshape y -> lix_block y ix block -> lix_get y ix = Ok g ->
  Forall NoDup block /\ (match ix with LxTuple _ => Forall (fun l => l <> []) block | _ => True end).
Proof.
  intros Hv H0 Hb H. destruct (lix_get_sound y ix g Hv H0 H) as (block2 & Hb2 & Hp).
  assert (block2 = block) as -> by (eapply lix_all_fun; [by apply valid_nodup|done|done]).
  assert (Hgen : (match ix with LxTuple _ => False | _ => True end) -> Forall NoDup block).
  { intros Hnt. assert (HN : Forall NoDup (sel_labels (lix_sel ix block))).
    { destruct g as [z|v|a]; simpl in Hp; [|destruct Hp as [-> _]; constructor|done].
      destruct Hp as (Hz & _ & <- & _). by apply valid_nodup. }
    assert (Hgo : forall l L, Forall NoDup (sel_labels (drop_single l :: (Among <$> L))) -> Forall NoDup (l :: L)).
    { intros l L HH. destruct (decide (1 < length l)) as [Hl|Hl].
      - destruct l as [|x [|x2 l]]; simpl in Hl; try lia. by rewrite <-(sel_labels_cons_among _ L).
      - constructor; [apply NoDup_short; lia|]. destruct l as [|x [|x2 l]]; simpl in Hl; try lia.
        + simpl drop_single in HH. rewrite sel_labels_cons_among in HH. by apply Forall_cons in HH as [_ ?].
        + simpl drop_single in HH. by rewrite sel_labels_cons_at in HH. }
    destruct ix as [z|ls|sl|items]; [| | |done]; destruct block as [|l L]; try constructor; cbn [lix_sel] in HN.
    all: try (simpl in HN; rewrite drop_0 in HN; apply Hgo in HN; by apply Forall_cons in HN as [? ?]).
    all: rewrite (sel_labels_among (l :: L)) in HN; by apply Forall_cons in HN as [? ?]. }
  destruct ix as [z|ls|sl|items]; try (by split; [apply Hgen|]).
  destruct (lix_tuple_sound_full y items g Hv H0 H) as (block2 & Hb3 & HN & Hne & _).
  assert (block2 = block) as -> by (eapply lix_all_fun; [by apply valid_nodup|done|exact Hb]). done.
Qed.

(** A larry without elements. *)
Lemma lix_get_nothing y ix :
  0 ∈ lshape y -> (lndim y = 1 -> lix_get y ix = Ok (GLar y)) /\ (lndim y <> 1 -> lix_get y ix = Err ValueError).
Proof.
  intros H0. unfold lix_get. split; intros Hn.
  - rewrite decide_True; [done|]. change (lndim y) with (length (lshape y)) in Hn.
    destruct (lshape y) as [|n [|]]; try done. by apply elem_of_list_singleton in H0 as <-.
  - rewrite decide_False; [by rewrite decide_True|]. intros E. change (lndim y) with (length (lshape y)) in Hn. by rewrite E in Hn.
Qed.

(** * Writing *)
Lemma sel_full_in ss ls full : in_grid (sel_labels ss) ls -> sel_full ss ls = Some full ->
  Forall2 (fun x s => match s with At x' => x = x' | Among l => x ∈ l end) full ss.
Proof.
  revert ls full. induction ss as [|[x|l] ss IH]; intros ls full Hg Hf; simpl in Hf.
  - destruct ls; [|done]. injection Hf as <-. constructor.
  - apply bind_Some in Hf as (f & Hf & [= <-]). constructor; [done|]. by eapply IH.
  - destruct ls as [|y ls]; [done|]. apply bind_Some in Hf as (f & Hf & [= <-]).
    unfold in_grid, sel_labels in Hg. simpl in Hg. inversion Hg; subst. constructor; [done|]. by eapply IH.
Qed.
Lemma grid_sel_full ss full :
  Forall2 (fun x s => match s with At x' => x = x' | Among l => x ∈ l end) full ss ->
  exists ls, in_grid (sel_labels ss) ls /\ sel_full ss ls = Some full.
Proof.
  induction 1 as [|x s full ss Hx H (ls & Hg & Hf)].
  { exists []. split; [constructor|done]. }
  destruct s as [x'|l].
  - subst x'. exists ls. split; [exact Hg|]. simpl. by rewrite Hf.
  - exists (x :: ls). split; [constructor; done|]. simpl. by rewrite Hf.
Qed.
(** A constant written over a selection. *)
Lemma overwritten_const y ss u z :
  overwritten y ss (fun _ w => w = u) z <->
  valid z /\ ldtype z = ldtype y /\ llabel z = llabel y /\
  (forall full, Forall2 (fun x s => match s with At x' => x = x' | Among l => x ∈ l end) full ss -> cell z full = Some u) /\
  (forall full, ~ Forall2 (fun x s => match s with At x' => x = x' | Among l => x ∈ l end) full ss -> cell z full = cell y full).
Proof.
  unfold overwritten. split.
  - intros (H1 & H2 & H3 & H4 & H5). split_and!; [done..| |].
    + intros full Hf. apply grid_sel_full in Hf as (ls & Hg & Hf). destruct (H4 ls full Hg Hf) as (w & Hw & ->). done.
    + intros full Hn. apply H5. intros ls Hg Hf. apply Hn. by eapply sel_full_in.
  - intros (H1 & H2 & H3 & H4 & H5). split_and!; [done..| |].
    + intros ls full Hg Hf. exists u. split; [|done]. apply H4. by eapply sel_full_in.
    + intros full Hn. apply H5. intros Hf. apply grid_sel_full in Hf as (ls & Hg & Hf). by eapply Hn.
Qed.
Lemma lix_sel_grid ix block full :
  Forall2 (fun x s => match s with At x' => x = x' | Among l => x ∈ l end) full (lix_sel ix block) <-> in_grid block full.
Proof.
  assert (Ha : forall bl f, Forall2 (fun x s => match s with At x' => x = x' | Among l => x ∈ l end) f (Among <$> bl) <-> in_grid bl f).
  { intros bl f. unfold in_grid. by rewrite Forall2_fmap_r. }
  assert (Hd1 : forall x l, (match drop_single l with At x' => x = x' | Among l => x ∈ l end) <-> x ∈ l).
  { intros x [|x1 [|x2 l]]; simpl; [done| |done]. by rewrite elem_of_list_singleton. }
  assert (Hd : forall bl f, Forall2 (fun x s => match s with At x' => x = x' | Among l => x ∈ l end) f (drop_single <$> bl) <-> in_grid bl f).
  { intros bl f. unfold in_grid. rewrite Forall2_fmap_r. split; intros H; (eapply Forall2_impl; [exact H|]); intros x l; apply Hd1. }
  assert (Hf : Forall2 (fun x s => match s with At x' => x = x' | Among l => x ∈ l end) full ((drop_single <$> take 1 block) ++ (Among <$> drop 1 block)) <-> in_grid block full).
  { destruct block as [|l L]; [apply Ha|]. simpl. rewrite drop_0. split; intros H; inversion H; subst; constructor.
    all: try (by apply Hd1). all: by apply Ha. }
  destruct ix; simpl; [exact Hf|exact Hf|apply Ha|apply Hd].
Qed.

Lemma blocks_map L pss block idx ls :
  blocks L pss block -> labels_at block idx ls -> exists idx0, lookup_all pss idx = Some idx0 /\ labels_at L idx0 ls.
Proof. intros Hb. by apply lookup_all_labels. Qed.
Lemma blocks_inv L pss block idx idx0 :
  blocks L pss block -> lookup_all pss idx = Some idx0 -> in_range (length <$> block) idx ->
  exists ls, labels_at block idx ls /\ labels_at L idx0 ls.
Proof.
  intros Hb Hm Hr. apply labels_at_exists in Hr as [ls Hls]. destruct (blocks_map _ _ _ _ _ Hb Hls) as (i0 & Hi0 & Hl0).
  rewrite Hm in Hi0. injection Hi0 as <-. eauto.
Qed.

(** A constant through np.ix_. *)
Lemma ix_set_const y pss block u b :
  valid y -> blocks (llabel y) pss block -> has_dtype (ldtype y) u = true ->
  foldM (scatter_step (lookup_all pss) (fun _ => Ok u)) (larr y) (indices (length <$> pss)) = Ok b ->
  overwritten y (Among <$> block) (fun _ w => w = u) (Larry (Nda (ldtype y) b) (llabel y)).
Proof.
  intros Hv Hb Hu H. rewrite (blocks_length _ _ _ Hb) in H.
  assert (Hrange : forall idx p, idx ∈ indices (length <$> block) -> lookup_all pss idx = Some p -> in_range (shape (larr y)) p).
  { intros idx p Hi Hm. apply elem_of_indices in Hi. destruct (blocks_inv _ _ _ _ _ Hb Hm Hi) as (ls & _ & Hl).
    change (shape (larr y)) with (lshape y). rewrite <-(valid_shape y Hv). by eapply labels_at_in_range. }
  destruct (scatter_spec (lookup_all pss) (fun _ => Ok u) _ (larr y) b (valid_wf y Hv) Hrange ltac:(done) H) as (Hsb & Hwb & Hin & Hout).
  assert (Hvz : valid (Larry (Nda (ldtype y) b) (llabel y))).
  { apply valid_of_array; [done|done|done|]. intros p v Hg.
    destruct (decide (Exists (fun idx => lookup_all pss idx = Some p) (indices (length <$> block)))) as [He|He].
    - apply Exists_exists in He as (idx & Hidx & Hm). destruct (Hin idx Hidx) as (p2 & u2 & E1 & E2 & E3).
      assert (v = u) as -> by congruence. done.
    - rewrite Hout in Hg by (intros idx Hidx Hm; apply He, Exists_exists; eauto).
      eapply (nda_wf_typed (lx y)); [by destruct Hv|exact Hg]. }
  apply overwritten_const. split_and!; [done|done|done| |].
  - intros full Hf. assert (Hg : in_grid block full) by (unfold in_grid; by rewrite Forall2_fmap_r in Hf).
    apply in_grid_labels_at in Hg as [idx Hl]. destruct (blocks_map _ _ _ _ _ Hb Hl) as (p & Hm & Hlp).
    rewrite (set_cell y b p full Hv Hlp).
    destruct (Hin idx) as (p' & u' & Hm' & Hu' & Hgp); [apply elem_of_indices; by eapply labels_at_in_range|]. congruence.
  - intros full Hno. destruct (decide (in_grid (llabel y) full)) as [Hg|Hg].
    + apply in_grid_labels_at in Hg as [p Hla]. rewrite (set_cell y b p full Hv Hla), Hout.
      * symmetry. apply cell_at; [by apply valid_nodup|done].
      * intros idx Hidx Hm. apply elem_of_indices in Hidx. destruct (blocks_inv _ _ _ _ _ Hb Hm Hidx) as (ls & Hl1 & Hl2).
        assert (ls = full) as -> by (by eapply labels_at_fun). apply Hno. rewrite Forall2_fmap_r.
        change (in_grid block full). apply in_grid_labels_at. eauto.
    + rewrite (proj2 (cell_None_grid y full Hv) Hg). by apply cell_None_grid.
Qed.

Lemma ix_set_step {A} (a : arr A) ids v b :
  np_ix_set a ids v = Ok b <-> exists pss, np_ix_ids (shape a) ids = Ok pss /\ foldM (scatter_step (lookup_all pss) v) a (indices (length <$> pss)) = Ok b.
Proof. unfold np_ix_set. by rewrite bind_ok. Qed.

Lemma lix_nonempty y : ~ 0 ∈ lshape y -> lshape y <> [0].
Proof. intros H0 E. apply H0. rewrite E. left. Qed.

Theorem lix_set_val_sound y ix v z :
  valid y -> ~ 0 ∈ lshape y -> lix_set y ix (SVal v) = Ok z ->
  exists block u, lix_block y ix block /\ store (ldtype y) v = Ok u /\
  valid z /\ ldtype z = ldtype y /\ llabel z = llabel y /\
  (forall ls, in_grid block ls -> cell z ls = Some u) /\
  (forall ls, ~ in_grid block ls -> cell z ls = cell y ls).
Proof.
  intros Hv H0 H.
  assert (HH : exists block u, lix_block y ix block /\ store (ldtype y) v = Ok u /\
    exists ix', overwritten y (lix_sel ix' block) (fun _ w => w = u) z).
  { destruct ix as [i|ls|sl|items].
    4:{ unfold lix_set in H. rewrite decide_False in H by (by apply lix_nonempty). rewrite decide_False in H by done.
      apply bind_ok in H as (q & Hq & H). apply bind_ok in H as (f & Hf & H). apply bind_ok in Hf as (u & Hu & [= <-]).
      apply bind_ok in H as (b & Hb & [= <-]). apply ix_set_step in Hb as (pss & Hp & Hb). change (shape (larr y)) with (lshape y) in Hp.
      destruct (lix_items_sound y items q pss Hv Hq Hp) as (block & Hall & Hbl & _). exists block, u. split_and!; [done|done|].
      exists (LxSlice (LSlice None None None)). simpl. eapply ix_set_const; try done. by eapply store_typed. }
    all: rewrite lix_set_sub in H by done; apply bind_ok in H as (sub & Hsub & H);
      destruct (label_cons y Hv) as (l & L & Hl);
      destruct (lix_sub_sound y l L _ sub Hv Hl Hsub) as (it & Hit & Hnl & Hnt & Hsel);
      destruct (setitem_val_sound y sub v z Hv) as (ss & u & Hss & Hu & Hp);
      [rewrite Hit; by constructor|rewrite Hit; apply single_one_list|done|];
      rewrite Hit, Hl in Hss; apply selects_single_inv in Hss as (s & -> & Hs);
      destruct (Hsel s Hs) as (l' & Hl' & Hls); exists (l' :: L), u; (split_and!;
      [unfold lix_block; rewrite Hl, first_parts by done; apply lix_all_single; eauto|done|]).
    all: match type of Hsub with lix_sub _ ?q = _ => exists q; rewrite (sel_first q l' L s I Hls); done end. }
  destruct HH as (block & u & Hb & Hu & ix' & Ho). exists block, u. apply overwritten_const in Ho as (G1 & G2 & G3 & G4 & G5).
  split_and!; try done.
  - intros ls Hls. apply G4. by apply lix_sel_grid.
  - intros ls Hls. apply G5. intros Hn. apply Hls. by apply lix_sel_grid in Hn.
Qed.

Theorem lix_set_val_complete y ix v u block :
  valid y -> ~ 0 ∈ lshape y -> lix_block y ix block ->
  (match ix with LxTuple _ => Forall (fun l => l <> []) block | _ => True end) -> store (ldtype y) v = Ok u ->
  exists z, lix_set y ix (SVal v) = Ok z.
Proof.
  intros Hv H0 Hb Hne Hu. destruct ix as [i|ls|sl|items].
  4:{ unfold lix_set. rewrite decide_False by (by apply lix_nonempty). rewrite decide_False by done.
    destruct (lix_items_complete y items block Hv Hb Hne) as (q & pss & Hq & Hp & Hbl). rewrite Hq. cbn [mbind res_bind].
    rewrite Hu. cbn [mbind res_bind].
    assert (exists b, np_ix_set (larr y) q.*1 (fun _ => Ok u) = Ok b) as [b ->]; [|simpl; eauto].
    destruct (scatter_total (lookup_all pss) (fun _ => Ok u) (indices (length <$> pss)) (larr y)) as [b Hb'].
    { intros idx Hidx. split; [|eauto]. apply elem_of_indices in Hidx. rewrite (blocks_length _ _ _ Hbl) in Hidx.
      apply labels_at_exists in Hidx as [ls Hls]. destruct (blocks_map _ _ _ _ _ Hbl Hls) as (p & -> & _). eauto. }
    exists b. apply ix_set_step. eauto. }
  all: destruct (label_cons y Hv) as (l & L & Hl); unfold lix_block in Hb; rewrite Hl, first_parts in Hb by done;
    apply lix_all_single in Hb as (l' & -> & Hl');
    match goal with |- context [lix_set _ ?q] => destruct (lix_sub_complete y l L q l' Hv Hl I Hl') as (sub & it & s & Hsub & Hit & Hnl & Hnt & Hls & Hs) end;
    rewrite lix_set_sub by done; rewrite Hsub; cbn [mbind res_bind];
    eapply (setitem_val_complete y sub); [done|rewrite Hit; by constructor|rewrite Hit; apply single_one_list
     |rewrite Hit, Hl; by apply selects_single|done].
Qed.

Lemma lix_label_eq y q block label :
  Forall3 (fun l (e : list Z * option (list lab)) l' => mapM (py_get l) e.1 = Some l') (llabel y) q block ->
  mapR (fun p : list lab * (list Z * option (list lab)) => of_opt IndexError (mapM (py_get p.1) p.2.1)) (zip (llabel y) q) = Ok label <-> label = block.
Proof.
  intros H. assert (mapR (fun p : list lab * (list Z * option (list lab)) => of_opt IndexError (mapM (py_get p.1) p.2.1)) (zip (llabel y) q) = Ok block) as ->.
  { induction H as [|l e l' L qq bl Hl H IH]; [done|]. simpl. rewrite Hl. simpl. by rewrite IH. }
  split; [by intros [= ->]|by intros ->].
Qed.

Theorem lix_set_larry_sound y ix z y' :
  valid y -> valid z -> ~ 0 ∈ lshape y -> lix_set y ix (SLarry z) = Ok y' ->
  exists block, lix_block y ix block /\ llabel z = sel_labels (lix_value_sel ix block) /\
    overwritten y (lix_value_sel ix block) (fun ls w => exists u, cell z ls = Some u /\ store (ldtype y) u = Ok w) y'.
Proof.
  intros Hv Hz H0 H. destruct ix as [i|ls|sl|items].
  4:{ unfold lix_set in H. rewrite decide_False in H by (by apply lix_nonempty). rewrite decide_False in H by done.
    apply bind_ok in H as (q & Hq & H). apply bind_ok in H as (f & Hf & H). destruct (decide (lndim z <> length q)); [done|].
    apply bind_ok in Hf as (label & Hlab & Hf). case_decide as El; [|done]. injection Hf as <-.
    apply bind_ok in H as (b & Hb & [= <-]). apply ix_set_step in Hb as (pss & Hp & Hb). change (shape (larr y)) with (lshape y) in Hp.
    destruct (lix_items_sound y items q pss Hv Hq Hp) as (block & Hall & Hbl & _ & Hpg & _). apply (lix_label_eq y q block) in Hlab; [|done].
    exists block. cbn [lix_value_sel]. split_and!; [done|rewrite sel_labels_among; congruence|].
    apply (scatter_larry y z (Among <$> block) (length <$> block) (lookup_all pss)); [done|done|by rewrite sel_labels_among|rewrite sel_labels_among; congruence| |].
    - rewrite sel_labels_among. intros idx ls Hls. destruct (blocks_map _ _ _ _ _ Hbl Hls) as (p & Hp' & Hla). exists p, ls.
      split_and!; [done| |done]. apply sel_full_among. symmetry. by destruct (Forall3_lengths _ _ _ _ Hls); congruence.
    - by rewrite <-(blocks_length _ _ _ Hbl). }
  all: rewrite lix_set_sub in H by done; apply bind_ok in H as (sub & Hsub & H);
    destruct (label_cons y Hv) as (l & L & Hl);
    destruct (lix_sub_sound y l L _ sub Hv Hl Hsub) as (it & Hit & Hnl & Hnt & Hsel);
    destruct (setitem_larry_sound y sub z y' Hv Hz) as (ss & Hss & Hlz & Hp);
    [rewrite Hit; by constructor|rewrite Hit; apply single_one_list|rewrite Hit; apply single_joined|by apply first_complete|done|];
    rewrite Hit, Hl in Hss; apply selects_single_inv in Hss as (s & -> & Hs);
    destruct (Hsel s Hs) as (l' & Hl' & Hls); exists (l' :: L); cbn [lix_value_sel]; erewrite (sel_first _ l' L s) by done; (split_and!;
    [unfold lix_block; rewrite Hl, first_parts by done; apply lix_all_single; eauto|done|done]).
Qed.
Theorem lix_set_larry_complete y ix z block :
  valid y -> valid z -> ~ 0 ∈ lshape y -> lix_block y ix block ->
  (match ix with LxTuple _ => Forall (fun l => l <> []) block | _ => True end) -> llabel z = sel_labels (lix_value_sel ix block) ->
  (forall ls u, cell z ls = Some u -> exists w, store (ldtype y) u = Ok w) ->
  exists y', lix_set y ix (SLarry z) = Ok y'.
Proof.
  intros Hv Hz H0 Hb Hne Hlz Hst. destruct ix as [i|ls|sl|items].
  4:{ cbn [lix_value_sel] in Hlz. rewrite sel_labels_among in Hlz.
    unfold lix_set. rewrite decide_False by (by apply lix_nonempty). rewrite decide_False by done.
    destruct (lix_items_complete y items block Hv Hb Hne) as (q & pss & Hq & Hp & Hbl). rewrite Hq. cbn [mbind res_bind].
    destruct (lix_items_sound y items q pss Hv Hq Hp) as (block2 & _ & Hbl2 & _ & Hpg & _).
    assert (block2 = block) as ->.
    { clear -Hbl Hbl2. revert block2 Hbl2. induction Hbl as [|l ps l' L pss block Hm H IH]; intros block2 H2; inversion H2; subst; [done|].
      f_equal; [congruence|auto]. }
    pose proof (Forall3_lengths _ _ _ _ Hpg) as [Hn1 Hn2].
    rewrite (decide_False (P := lndim z <> length q)).
    2:{ intros Hn. apply Hn. rewrite <-(valid_ndim z Hz), Hlz. done. }
    rewrite (proj2 (lix_label_eq y q block block Hpg) eq_refl). cbn [mbind res_bind]. rewrite decide_True by done. cbn [mbind res_bind].
    match goal with |- context [np_ix_set _ _ ?f] => assert (exists b, np_ix_set (larr y) q.*1 f = Ok b) as [b ->]; [|simpl; eauto];
      destruct (scatter_total (lookup_all pss) f (indices (length <$> pss)) (larr y)) as [b Hb'] end.
    { intros idx Hidx. apply elem_of_indices in Hidx. rewrite (blocks_length _ _ _ Hbl) in Hidx.
      apply labels_at_exists in Hidx as [ls Hls]. split; [destruct (blocks_map _ _ _ _ _ Hbl Hls) as (p & -> & _); eauto|].
      rewrite <-Hlz in Hls. pose proof (cell_at z idx ls (valid_nodup z Hz) Hls) as Hc.
      assert (is_Some (cell z ls)) as [u Hu] by (apply (valid_cell_grid z ls Hz), in_grid_labels_at; eauto).
      destruct (Hst ls u Hu) as [w Hw]. exists w. rewrite <-Hc, Hu. simpl. done. }
    exists b. apply ix_set_step. eauto. }
  all: destruct (label_cons y Hv) as (l & L & Hl); unfold lix_block in Hb; rewrite Hl, first_parts in Hb by done;
    apply lix_all_single in Hb as (l' & -> & Hl');
    match goal with |- context [lix_set _ ?q] => destruct (lix_sub_complete y l L q l' Hv Hl I Hl') as (sub & it & s & Hsub & Hit & Hnl & Hnt & Hls & Hs) end;
    rewrite lix_set_sub by done; rewrite Hsub; cbn [mbind res_bind]; cbn [lix_value_sel] in Hlz; erewrite (sel_first _ l' L s) in Hlz by done;
    eapply (setitem_larry_complete y sub); [done|done|rewrite Hit; by constructor|rewrite Hit; apply single_one_list|rewrite Hit; apply single_joined|by apply first_complete
     |rewrite Hit, Hl; by apply selects_single|done|done].
Qed.

(** * Where indexing fails *)
Definition cube : larry :=
  Larry (Nda DInt (Arr [1; 2; 2] (VInt <$> [1; 2; 3; 4]%Z))) [[LStr "a"]; [LStr "x"; LStr "y"]; [LInt 1; LInt 2]].
Lemma getitem_separated_refuted :
  exists y items z, valid y /\ one_list items /\ larry_getitem y (XTuple items) = Ok (GLar z) /\
    ~ exists ss, selects_all (llabel y) items ss /\ picked y ss (GLar z).
Proof.
  exists cube, [IInt 0; ISlice slice_all; IList [0; 1]%Z].
  exists (Larry (Nda DInt (Arr [2; 2] (VInt <$> [1; 3; 2; 4]%Z))) [[LStr "x"; LStr "y"]; [LInt 1; LInt 2]]).
  split_and!.
  - solve_valid.
  - intros i j a b Hi Hj Ha Hb. destruct i as [|[|[|i]]]; simplify_eq/=; try done; destruct j as [|[|[|j]]]; simplify_eq/=; done.
  - vm_compute. reflexivity.
  - intros (ss & [_ Hss] & (_ & _ & _ & Hc)). specialize (Hc [LStr "x"; LInt 2]). destruct Hc as (full & Hf & Hc).
    { repeat constructor. }
    simpl in Hss. inversion Hss as [|? ? s1 ? ? ss1 H1 Hss1]; subst. inversion Hss1 as [|? ? s2 ? ? ss2 H2 Hss2]; subst.
    inversion Hss2 as [|? ? s3 ? ? ss3 H3 Hss3]; subst. inversion Hss3; subst.
    destruct s1 as [x|]; [|done]. destruct s2 as [|l2]; [done|]. destruct s3 as [|l3]; [done|].
    vm_compute in H1. injection H1 as <-. simpl in Hf. injection Hf as <-. vm_compute in Hc. congruence.
Qed.
Lemma getitem_short_refuted :
  exists y items a, valid y /\ Forall is_int items /\ larry_getitem y (XTuple items) = Ok (GArr a).
Proof.
  exists cube, [IInt 0], (Nda DInt (Arr [2; 2] (VInt <$> [1; 2; 3; 4]%Z))).
  split_and!; [solve_valid|repeat constructor|vm_compute; reflexivity].
Qed.
Lemma lix_empty_refuted :
  exists y items block, valid y /\ ~ 0 ∈ lshape y /\ lix_all (llabel y) items block /\ forall g, lix_get y (LxTuple items) <> Ok g.
Proof.
  exists cube, [LInt1 0; LSl (LSlice (Some (ELab [LStr "y"])) (Some (ELab [LStr "x"])) None)], [[LStr "a"]; []; [LInt 1; LInt 2]].
  split_and!; [solve_valid|by intros H; repeat (apply elem_of_cons in H as [|H]; [lia|]); apply elem_of_nil in H| |].
  - split; [simpl; lia|]. simpl. constructor; [eexists; split; [reflexivity|done]|]. constructor.
    + exists (Some 1%Z), (Some 0%Z). split_and!; [by exists (LStr "y"), 1|by exists (LStr "x"), 0|reflexivity].
    + constructor; [by apply lix_full_labels|constructor].
  - intros g. vm_compute. done.
Qed.

(** No axis may be left without positions. *)
Theorem lix_set_empty y items block value :
  valid y -> lix_all (llabel y) items block -> [] ∈ block -> forall z, lix_set y (LxTuple items) value <> Ok z.
Proof.
  intros Hv Hall H0 z H. unfold lix_set in H. case_decide; [done|]. case_decide; [done|].
  apply bind_ok in H as (q & Hq & H). apply bind_ok in H as (f & _ & H). apply bind_ok in H as (b & Hb & _).
  apply ix_set_step in Hb as (pss & Hp & _). change (shape (larr y)) with (lshape y) in Hp.
  destruct (lix_items_sound y items q pss Hv Hq Hp) as (block2 & Hall2 & _ & _ & _ & Hne).
  rewrite (lix_all_fun _ _ _ _ (valid_nodup y Hv) Hall2 Hall) in Hne. rewrite Forall_forall in Hne. by apply (Hne [] H0).
Qed.
