(** Lane by lane functions of numeric larrys. *)
From Verif Require Export Farray LaneFacts ReduceFacts CutFacts.

Lemma numbers_omap vs : Forall (fun v => exists n, to_num v = Some n) vs -> numbers vs (omap to_num vs).
Proof.
  induction 1 as [|v vs [n Hn] H IH]; [constructor|]. change (omap to_num (v :: vs)) with (match to_num v with Some y => y :: omap to_num vs | None => omap to_num vs end).
  rewrite Hn. by constructor.
Qed.
Lemma numeric_to_num y v : numeric_larry y -> has_dtype (ldtype y) v = true -> exists n, to_num v = Some n.
Proof. intros [-> | ->]; destruct v; simpl; try done; eauto. Qed.
Lemma numbers_length vs ns : numbers vs ns -> length ns = length vs.
Proof. intros H. symmetry. by eapply Forall2_length. Qed.
Lemma numbers_fun vs ns ms : numbers vs ns -> numbers vs ms -> ns = ms.
Proof.
  intros H. revert ms. induction H as [|v n vs ns Hn H IH]; intros ms Hm; inversion Hm; subst; [done|].
  f_equal; [congruence|auto].
Qed.
Lemma omap_num_length y vs :
  numeric_larry y -> Forall (fun v => has_dtype (ldtype y) v = true) vs -> numbers vs (omap to_num vs).
Proof. intros Hn H. apply numbers_omap. eapply Forall_impl; [exact H|]. intros v. by apply numeric_to_num. Qed.
Lemma check_numeric_ok y : numeric_larry y -> check_numeric (lx y) = Ok ().
Proof. unfold check_numeric. change (nd_dtype (lx y)) with (ldtype y). by intros [-> | ->]. Qed.
Lemma check_numeric_inv y u : check_numeric (lx y) = Ok u -> numeric_larry y.
Proof. unfold check_numeric, numeric_larry. change (nd_dtype (lx y)) with (ldtype y). destruct (ldtype y); try done; auto. Qed.

Lemma with_label_grid label ax l x ls :
  label !! ax = Some l -> x ∈ l -> in_grid (delete ax label) ls -> in_grid label (with_label ax x ls).
Proof.
  intros Hl Hx Hg. unfold in_grid in *. unfold with_label.
  rewrite delete_take_drop in Hg. rewrite <-(take_drop_middle _ _ _ Hl).
  apply Forall2_app_inv_r in Hg as (l1 & l2 & H1 & H2 & ->).
  assert (length l1 = ax) as Hlen.
  { apply Forall2_length in H1. rewrite H1, take_length. apply lookup_lt_Some in Hl. lia. }
  rewrite take_app_alt, drop_app_alt by done. apply Forall2_app; [done|]. by constructor.
Qed.
Lemma delete_with_label ax x ls : ax <= length ls -> delete ax (with_label ax x ls) = ls.
Proof.
  intros H. unfold with_label. rewrite delete_take_drop. rewrite take_app_alt by (rewrite take_length; lia).
  rewrite drop_app_ge by (rewrite take_length; lia). rewrite take_length.
  replace (S ax - ax `min` length ls) with 1 by lia. simpl. rewrite drop_0. apply take_drop.
Qed.
Lemma with_label_lookup ax x ls : ax <= length ls -> with_label ax x ls !! ax = Some x.
Proof. intros H. unfold with_label. rewrite lookup_app_r by (rewrite take_length; lia). rewrite take_length. by replace (ax - ax `min` length ls) with 0 by lia. Qed.

Lemma data_grid y : valid y -> Forall2 (fun ls v => cell y ls = Some v) (grid (llabel y)) (data (larr y)).
Proof.
  intros Hv.
  assert (Hd : mapM (aget (larr y)) (indices (lshape y)) = Some (data (larr y))).
  { pose proof (valid_wf y Hv) as Hwf. apply mapM_Some_lookup. split; [rewrite indices_length; exact Hwf|].
    intros i idx Hi. apply indices_lookup in Hi as [Hr Hi]. unfold aget. rewrite decide_True by done. by rewrite <-Hi. }
  rewrite <-valid_shape in Hd by done. apply mapM_Some in Hd.
  pose proof (grid_indices (llabel y)) as Hg. revert Hd Hg.
  generalize (indices (length <$> llabel y)) (grid (llabel y)) (data (larr y)). intros is gs ds Hd. revert gs.
  induction Hd as [|idx v is ds Hi Hd IH]; intros gs Hg; inversion Hg; subst; constructor; [|auto].
  rewrite (cell_at y idx); [done|by apply valid_nodup|done].
Qed.

(** Number of elements in a lane. *)
Definition lane_size (y : larry) (axis : option nat) (n : nat) : Prop :=
  match axis with Some ax => exists l, llabel y !! ax = Some l /\ length l = n | None => n = lsize y end.

Lemma lanewise_spec (R : list num -> list num -> Prop) f y (axis : option nat) a :
  (forall ns, lane_size y axis (length ns) -> length (f ns) = length ns /\ R ns (f ns)) ->
  valid y -> numeric_larry y ->
  match axis, a with Some ax, Some a => axis_is y a ax | None, None => True | _, _ => False end ->
  exists x, lanewise f (lx y) axis = Ok x /\ lanes_related R y a (Larry x (llabel y)).
Proof.
  intros HR Hv Hn Hax. unfold lanewise. rewrite check_numeric_ok by done. cbn [mbind res_bind].
  pose proof (valid_wf y Hv) as Hwf.
  destruct axis as [ax|], a as [a|]; try done.
  - assert (Hlt : ax < lndim y) by (rewrite <-valid_ndim by done; apply Hax).
    assert (exists l, llabel y !! ax = Some l) as [l Hl]. { apply lookup_lt_is_Some. apply Hax. }
    set (g := fun vs => if decide (Forall (fun v => has_dtype (ldtype y) v = true) vs /\ length vs = length l) then on_nums f vs else replicate (length vs) (VFloat NaN)).
    destruct (along_larry y ax DFloat g Hv Hlt) as (b & Hb & Hvz & Hc).
    { intros vs. unfold g. destruct (decide _) as [[Hty Hlen]|]; [|by rewrite replicate_length]. unfold on_nums.
      pose proof (numbers_length _ _ (omap_num_length y vs Hn Hty)) as Hlv.
      rewrite fmap_length. destruct (HR (omap to_num vs)) as [-> _]; [|done]. exists l. by rewrite Hlv. }
    { intros vs _. unfold g. destruct (decide _).
      - unfold on_nums. apply Forall_fmap, Forall_true. done.
      - apply Forall_replicate. done. }
    assert (Hg : along (on_nums f) (larr y) ax = Some b).
    { rewrite <-Hb. unfold along. apply build_ext. intros idx Hr.
      destruct (lane (larr y) ax idx) as [vs|] eqn:Hvs; [|done]. cbn [mbind option_bind]. f_equal.
      unfold g. rewrite decide_True; [done|]. apply lane_Some in Hvs as (n & Hs & Hvn & Hget). split.
      - apply Forall_lookup. intros k v Hk. rewrite <-Hget in Hk by (rewrite <-Hvn; by eapply lookup_lt_Some).
        apply (nda_wf_typed (lx y)) in Hk; [done|apply Hv].
      - apply valid_axis in Hs as (l' & Hl' & Hll'); [|done]. congruence. }
    change (nd_arr (lx y)) with (larr y). rewrite Hg. cbn [of_opt mbind res_bind]. eexists. split; [done|].
    split_and!; [done..|]. exists ax. split; [done|]. intros ls Hls.
    assert (Hls' : ax <= length ls).
    { apply Forall2_length in Hls. rewrite Hls. apply lookup_lt_Some in Hl.
      rewrite delete_take_drop, app_length, take_length, drop_length. lia. }
    assert (Hdecomp : forall k x, l !! k = Some x -> exists vs, lane_of y ax ls vs /\
      cell (Larry (Nda DFloat b) (llabel y)) (with_label ax x ls) = on_nums f vs !! k).
    { intros k x Hk.
      assert (Hgr : in_grid (llabel y) (with_label ax x ls)) by (eapply with_label_grid; [done| |done]; by eapply elem_of_list_lookup_2).
      destruct (Hc _ Hgr) as (vs & k' & (Hlv & l' & x' & Hl' & Hx' & Hk') & Hcell).
      rewrite delete_with_label in Hlv by done. rewrite with_label_lookup in Hx' by done.
      assert (l' = l) as -> by congruence. assert (x' = x) as -> by congruence.
      assert (k' = k) as ->.
      { eapply NoDup_lookup; [|done|done]. pose proof (valid_nodup y Hv) as Hnd. rewrite Forall_lookup in Hnd. eauto. }
      exists vs. split; [done|]. rewrite Hcell. unfold g. rewrite decide_True; [done|]. split.
      - by eapply lane_of_typed.
      - by eapply lane_of_length. }
    assert (exists vs, lane_of y ax ls vs) as [vs Hvs].
    { assert (is_Some (mapM (fun x => cell y (with_label ax x ls)) l)) as [vs Hvs].
      - apply mapM_is_Some, Forall_forall. intros x Hx. apply valid_cell_grid; [done|]. by eapply with_label_grid.
      - exists vs, l. split; [done|]. by apply mapM_Some. }
    assert (Hty : Forall (fun v => has_dtype (ldtype y) v = true) vs) by (by eapply lane_of_typed).
    pose proof (omap_num_length y vs Hn Hty) as Hns. pose proof (numbers_length _ _ Hns) as Hlv.
    assert (Hvl : length vs = length l) by (by eapply lane_of_length).
    assert (Hsz : lane_size y (Some ax) (length (omap to_num vs))) by (exists l; split; [done|lia]).
    destruct (HR _ Hsz) as [Hfl HRf].
    exists vs, (omap to_num vs), (f (omap to_num vs)). split_and!; [done..| |done].
    exists l. split; [done|]. apply Forall2_same_length_lookup. split; [rewrite fmap_length; lia|].
    intros k x v Hk Hv'. destruct (Hdecomp k x Hk) as (vs' & Hvs' & ->).
    by rewrite (lane_of_unique _ _ _ _ _ Hvs' Hvs).
  - eexists. split; [done|].
    pose proof (valid_typed y Hv) as Hty. pose proof (omap_num_length y _ Hn Hty) as Hns.
    pose proof (numbers_length _ _ Hns) as Hlv.
    destruct (HR (omap to_num (data (larr y)))) as [Hfl HRf].
    { unfold lane_size. rewrite Hlv. exact Hwf. }
    set (z := Larry _ _).
    assert (Hvz : valid z).
    { destruct Hv as (_ & Hne & Hs & Hnd). split_and!; [|done..]. split.
      - unfold arr_wf. cbn. unfold on_nums. rewrite fmap_length. change (nd_arr (lx y)) with (larr y). rewrite Hfl, Hlv. exact Hwf.
      - cbn. unfold on_nums. apply Forall_fmap, Forall_true. done. }
    split_and!; [done..|].
    exists (grid (llabel y)), (data (larr y)), (omap to_num (data (larr y))), (f (omap to_num (data (larr y)))).
    split_and!; [by apply NoDup_grid, valid_nodup|intros; apply elem_of_grid|by apply data_grid|done| |done].
    pose proof (data_grid z Hvz) as Hz. change (llabel z) with (llabel y) in Hz.
    change (data (larr z)) with (VFloat <$> f (omap to_num (data (larr y)))) in Hz.
    by apply Forall2_fmap_r in Hz.
Qed.
