(** Larrys whose labels are in another order. *)
From Verif Require Export ReorderFacts.

Definition lreorders (ps : list nat) (a0 : nat) (l l' : list lab) (y y' : larry) : Prop :=
  lpicks ps a0 l l' y y' /\ ps ≡ₚ seq 0 (length l).
Lemma lr_arr ps a0 l l' y y' : lreorders ps a0 l l' y y' -> reorders ps a0 (larr y) (larr y').
Proof.
  intros [Hp Hps]. split; [apply Hp|]. exists (length l). split; [|done]. change (lshape y !! a0 = Some (length l)).
  destruct Hp as ((_ & _ & <- & _) & _ & _ & Hl & _). by rewrite list_lookup_fmap, Hl.
Qed.
Lemma lr_shape ps a0 l l' y y' : lreorders ps a0 l l' y y' -> lshape y' = lshape y.
Proof. intros H%lr_arr. by eapply reorders_shape. Qed.
Lemma lr_size ps a0 l l' y y' : lreorders ps a0 l l' y y' -> lsize y' = lsize y.
Proof. intros H. unfold lsize, nd_size. change (size_of (lshape y') = size_of (lshape y)). by rewrite (lr_shape _ _ _ _ _ _ H). Qed.
Lemma lr_dtype ps a0 l l' y y' : lreorders ps a0 l l' y y' -> ldtype y' = ldtype y.
Proof. intros [Hp _]. apply Hp. Qed.
Lemma lr_ndim ps a0 l l' y y' : lreorders ps a0 l l' y y' -> lndim y' = lndim y.
Proof. intros [Hp _]. by eapply lp_ndim'. Qed.
Lemma remove_at_insert_eq {A} a0 (x : A) l : remove_at a0 (<[a0 := x]> l) = remove_at a0 l.
Proof. unfold remove_at. revert a0. induction l as [|y l IH]; intros [|a0]; simpl; try done. by rewrite IH. Qed.
Lemma lr_labels ps a0 l l' y y' : lreorders ps a0 l l' y y' -> remove_at a0 (llabel y') = remove_at a0 (llabel y).
Proof. intros [(_ & _ & _ & _ & -> & _) _]. apply remove_at_insert_eq. Qed.
Lemma part_lreorders y a0 l l' y' : valid y -> llabel y !! a0 = Some l -> part_of y a0 l' y' -> l' ≡ₚ l -> exists ps, lreorders ps a0 l l' y y'.
Proof.
  intros Hv Hl Hp Hperm. destruct (part_lpicks y a0 l' y' Hv Hp) as (ps & k & Hlp & Hlen). exists ps.
  pose proof Hlp as (_ & _ & _ & Hk & _ & Hps). assert (k = l) as -> by congruence. split; [done|].
  assert (Hnd : NoDup l') by (by eapply lpicks_nodup).
  apply submseteq_Permutation_length_eq; [rewrite seq_length, Hlen; symmetry; by rewrite Hperm|].
  apply NoDup_submseteq.
  - apply NoDup_alt. intros i j p Hi Hj. destruct (Forall2_lookup_l _ _ _ _ _ Hps Hi) as (x & Hx & Hpx).
    destruct (Forall2_lookup_l _ _ _ _ _ Hps Hj) as (x' & Hx' & Hpx'). assert (x = x') as -> by congruence. by eapply NoDup_lookup.
  - intros p Hin. apply elem_of_list_lookup in Hin as [k Hpk]. destruct (Forall2_lookup_l _ _ _ _ _ Hps Hpk) as (x & _ & Hx).
    apply elem_of_seq. apply lookup_lt_Some in Hx. lia.
Qed.
(** The axis is none or the reordered one. *)
Definition this_axis (y : larry) (a0 : nat) (axis : option Z) : Prop := match axis with None => True | Some a => axis_is y a a0 end.
Lemma this_index y a0 a : valid y -> axis_is y a a0 -> py_index (lndim y) a = Some a0.
Proof. intros Hv Ha. apply py_index_Some. rewrite <-(valid_ndim y Hv). apply Ha. Qed.

Lemma reduce_reorder op ps a0 l l' y y' axis : lreorders ps a0 l l' y y' -> this_axis y a0 axis -> larry_reduce op y' axis = larry_reduce op y axis.
Proof.
  intros H Hax. unfold larry_reduce. rewrite (lr_size _ _ _ _ _ _ H), (lr_dtype _ _ _ _ _ _ H), (lr_ndim _ _ _ _ _ _ H), (lr_shape _ _ _ _ _ _ H).
  pose proof (lr_arr _ _ _ _ _ _ H) as Hr. destruct axis as [a|].
  - rewrite (this_index y a0 a) by (try done; apply H). cbn [of_opt mbind res_bind]. rewrite (lr_labels _ _ _ _ _ _ H).
    by rewrite (reorders_reduce ps a0 _ _ _ Hr (red_lane_free op (ldtype y))).
  - case_decide; [done|]. by rewrite (red_lane_free op (ldtype y) _ _ (reorders_data_perm _ _ _ _ Hr)).
Qed.
Lemma std_reorder sqrt ddof ps a0 l l' y y' axis : lreorders ps a0 l l' y y' -> this_axis y a0 axis -> larry_std sqrt y' axis ddof = larry_std sqrt y axis ddof.
Proof. intros H Hax. unfold larry_std, larry_var. by rewrite (lr_size _ _ _ _ _ _ H), (reduce_reorder _ _ _ _ _ _ _ _ H Hax). Qed.
Lemma nums_free f : order_free f -> order_free (fun l => VFloat (f (omap to_num l))).
Proof. intros Hf l l' Hp. f_equal. by apply Hf, omap_perm. Qed.
Lemma reduce_nums_reorder f e ps a0 l l' y y' axis : order_free f -> lreorders ps a0 l l' y y' -> this_axis y a0 axis ->
  reduce_nums f e y' axis = reduce_nums f e y axis.
Proof.
  intros Hf H Hax. unfold reduce_nums. rewrite (lr_size _ _ _ _ _ _ H), (lr_ndim _ _ _ _ _ _ H), (lr_shape _ _ _ _ _ _ H).
  pose proof (lr_dtype _ _ _ _ _ _ H) as Hd. unfold check_numeric. change (nd_dtype (lx y')) with (ldtype y'). change (nd_dtype (lx y)) with (ldtype y). rewrite Hd.
  pose proof (lr_arr _ _ _ _ _ _ H) as Hr. destruct axis as [a|].
  - rewrite (this_index y a0 a) by (try done; apply H). cbn [of_opt mbind res_bind]. rewrite (lr_labels _ _ _ _ _ _ H).
    by rewrite (reorders_reduce ps a0 _ _ _ Hr (nums_free f Hf)).
  - case_decide; [done|]. by rewrite (nums_free f Hf _ _ (reorders_data_perm _ _ _ _ Hr)).
Qed.
Lemma geometric_reorder log exp check ps a0 l l' y y' axis : lreorders ps a0 l l' y y' -> this_axis y a0 axis ->
  larry_geometric_mean log exp y' axis check = larry_geometric_mean log exp y axis check.
Proof.
  intros H Hax. unfold larry_geometric_mean. rewrite (lr_size _ _ _ _ _ _ H).
  rewrite (reduce_nums_reorder (fun _ => NaN) ValueError ps a0 l l' y y' axis) by done.
  rewrite (reduce_nums_reorder (geometric_lane log exp) ValueError ps a0 l l' y y' axis) by (done || apply geometric_free).
  pose proof (lr_dtype _ _ _ _ _ _ H) as Hd. unfold check_numeric. change (nd_dtype (lx y')) with (ldtype y'). change (nd_dtype (lx y)) with (ldtype y). rewrite Hd.
  by rewrite (existsb_perm _ _ _ (omap_perm to_num _ _ (reorders_data_perm _ _ _ _ (lr_arr _ _ _ _ _ _ H)))).
Qed.
Lemma forallb_free : order_free (forallb (id : bool -> bool)).
Proof. intros l l' H. by apply forallb_perm. Qed.
Lemma prod_reorder ps a0 l l' y y' axis : lreorders ps a0 l l' y y' -> this_axis y a0 axis -> larry_prod y' axis = larry_prod y axis.
Proof.
  intros H Hax. unfold larry_prod. unfold test_mask. pose proof (lr_dtype _ _ _ _ _ _ H) as Hd. change (nd_dtype (lx y')) with (ldtype y').
  change (nd_dtype (lx y)) with (ldtype y). rewrite Hd. pose proof (lr_arr _ _ _ _ _ _ H) as Hr. rewrite (lr_ndim _ _ _ _ _ _ H).
  set (isnan := fun v => match to_num v with Some n => is_nan n | None => false end).
  pose proof (reorders_amap ps a0 _ _ isnan Hr) as Hm.
  assert (Hgo : forall P P' : arr bool -> res out, (P' (amap isnan (larr y')) = P (amap isnan (larr y))) ->
    (x ← match ldtype y with DFloat | DInt | DBool => Ok (amap isnan (larr y')) | DStr | DObj => Err TypeError end; P' x) =
    (x ← match ldtype y with DFloat | DInt | DBool => Ok (amap isnan (larr y)) | DStr | DObj => Err TypeError end; P x)).
  { intros P P' E. destruct (ldtype y); simpl; done. }
  apply Hgo. clear Hgo. unfold putmask_scalar. change (nd_dtype (lx y')) with (ldtype y'). change (nd_dtype (lx y)) with (ldtype y). rewrite Hd.
  destruct (store (ldtype y) (VInt 1)) as [r|e] eqn:Est; [|done]. cbn [mbind res_bind].
  set (x := Nda (ldtype y) (azip _ _ (nd_arr (lx y)))). set (x' := Nda (ldtype y) (azip _ _ (nd_arr (lx y')))).
  assert (Hx : lreorders ps a0 l l' (Larry x (llabel y)) (Larry x' (llabel y'))).
  { destruct H as [Hp Hps]. split; [|done]. eapply lift; [done| |].
    - apply data_valid; [apply Hp| |done]. destruct (putmask_scalar_nda (lx y) (amap isnan (larr y)) (VInt 1) x) as (? & ? & ?); [apply Hp|apply Hm|done| |done].
      unfold putmask_scalar. change (nd_dtype (lx y)) with (ldtype y). by rewrite Est.
    - split; [done|]. apply picks_azip; [apply Hm|apply Hr|done]. }
  rewrite (reduce_reorder RProd _ _ _ _ _ _ axis Hx Hax). destruct (larry_reduce RProd (Larry x (llabel y)) axis) as [o|e]; [|done]. cbn [mbind res_bind].
  destruct axis as [a|].
  - rewrite (this_index y a0 a) by (try done; apply H). cbn [of_opt mbind res_bind]. by rewrite (reorders_reduce ps a0 _ _ _ Hm forallb_free).
  - by rewrite (forallb_free _ _ (reorders_data_perm _ _ _ _ Hm)).
Qed.
Lemma summary_reorder f y a0 l l' y' axis : summary_method f -> valid y -> llabel y !! a0 = Some l -> part_of y a0 l' y' -> l' ≡ₚ l ->
  match axis with None => True | Some a => axis_is y a a0 end -> f y' axis = f y axis.
Proof.
  intros Hf Hv Hl Hp Hperm Hax. destruct (part_lreorders y a0 l l' y' Hv Hl Hp Hperm) as [ps H]. destruct Hf.
  - by eapply reduce_reorder.
  - by eapply std_reorder.
  - by eapply prod_reorder.
  - by eapply geometric_reorder.
Qed.

(** * Normalisations *)
Definition tonum (v : val) : num := default NaN (to_num v).
Lemma omap_tonum dt l : (dt = DFloat \/ dt = DInt) -> Forall (fun v => has_dtype dt v = true) l -> omap to_num l = tonum <$> l.
Proof.
  intros Hdt. induction 1 as [|v l Hv _ IH]; [done|]. cbn [omap list_omap]. destruct Hdt as [->| ->]; destruct v; try done; csimpl; by f_equal.
Qed.
Lemma lane_elems {A} (P : A -> Prop) (a : arr A) ax idx l : arr_wf a -> Forall P (data a) -> lane a ax idx = Some l -> Forall P l.
Proof.
  intros Hwf HP (n & _ & Hlen & Hl)%lane_Some. apply Forall_lookup. intros k v Hv. assert (k < n) as Hk by (rewrite <-Hlen; by eapply lookup_lt_Some).
  rewrite <-Hl in Hv by done. rewrite Forall_forall in HP. apply HP. apply elem_of_data; eauto.
Qed.
Lemma on_nums_pointwise f g : pointwise f g -> pointwise (fun l => VFloat <$> f (tonum <$> l)) (fun l v => VFloat (g (tonum <$> l) (tonum v))).
Proof.
  intros [Hg Hf]. split.
  - intros v l l' Hp. f_equal. by apply Hg, fmap_Permutation.
  - intros l. rewrite Hf, <-!list_fmap_compose. done.
Qed.
Lemma along_on_nums f x ax : nda_wf x -> (nd_dtype x = DFloat \/ nd_dtype x = DInt) ->
  along (on_nums f) (nd_arr x) ax = along (fun l => VFloat <$> f (tonum <$> l)) (nd_arr x) ax.
Proof.
  intros [Hwf Ht] Hdt. unfold along, build. f_equal. apply mapM_ext_elem. intros idx _. destruct (lane _ _ _) as [l|] eqn:El; [|done]. simpl.
  destruct (idx !! ax) as [k|]; [|done]. simpl. unfold on_nums. by rewrite (omap_tonum (nd_dtype x)) by (done || by eapply lane_elems).
Qed.
Lemma lanewise_reorder f ps a0 l l' y y' axis : (exists g, pointwise f g) -> lreorders ps a0 l l' y y' -> axis = None \/ axis = Some a0 ->
  sim (npicks ps a0) (lanewise f (lx y) axis) (lanewise f (lx y') axis).
Proof.
  intros [g Hf] H Hax. pose proof (lr_dtype _ _ _ _ _ _ H) as Hd. unfold lanewise. rewrite (check_numeric_same _ _ _ _ (Hnp _ _ _ _ _ _ (proj1 H))).
  apply sim_bind_same. intros [] Hc. pose proof (lr_arr _ _ _ _ _ _ H) as Hr.
  assert (Hdt : nd_dtype (lx y) = DFloat \/ nd_dtype (lx y) = DInt) by (unfold check_numeric in Hc; destruct (nd_dtype (lx y)); try done; auto).
  assert (Hdt' : nd_dtype (lx y') = DFloat \/ nd_dtype (lx y') = DInt) by (change (nd_dtype (lx y')) with (ldtype y'); rewrite Hd; done).
  destruct H as [Hlp Hps]. assert (Hw : nda_wf (lx y)) by apply Hlp. assert (Hw' : nda_wf (lx y')) by apply Hlp.
  destruct Hax as [-> | ->].
  - apply sim_ret. split; [done|]. unfold on_nums. rewrite (omap_tonum (nd_dtype (lx y))), (omap_tonum (nd_dtype (lx y'))) by (done || apply Hw || apply Hw').
    apply (reorders_flat ps a0 (larr y) (larr y') _ _ Hr (on_nums_pointwise f g Hf)).
  - rewrite !along_on_nums by done. intros z Hz. apply bind_ok in Hz as (b & Hb & [= <-]). apply of_opt_ok in Hb.
    destruct (reorders_along ps a0 _ _ _ _ b Hr (on_nums_pointwise f g Hf) Hb) as (b' & Hb' & Hrb). unfold larr in Hb'. rewrite Hb'. eexists. split; [done|].
    split; [done|]. apply Hrb.
Qed.
Lemma on_axis_reorder f ps a0 l l' y y' axis : (exists g, pointwise f g) -> lreorders ps a0 l l' y y' -> this_axis y a0 axis ->
  sim (npicks ps a0) (on_axis f (lx y) axis) (on_axis f (lx y') axis).
Proof.
  intros Hf H Hax. unfold on_axis. destruct axis as [a|]; [|eapply lanewise_reorder; [done|done|by left]].
  change (nd_ndim (lx y')) with (lndim y'). change (nd_ndim (lx y)) with (lndim y). rewrite (lr_ndim _ _ _ _ _ _ H). unfold norm_axis.
  rewrite (this_index y a0 a) by (try done; apply H). cbn [of_opt mbind res_bind]. eapply lanewise_reorder; [done|done|by right].
Qed.
Lemma ranking_reorder ndtri norm ps a0 l l' y y' axis : lreorders ps a0 l l' y y' -> this_axis y a0 axis ->
  sim (npicks ps a0) (np_ranking ndtri (lx y) axis norm) (np_ranking ndtri (lx y') axis norm).
Proof.
  intros H Hax. unfold np_ranking. change (nd_ndim (lx y')) with (lndim y'). change (nd_ndim (lx y)) with (lndim y). rewrite (lr_ndim _ _ _ _ _ _ H).
  eapply (sim_bind (fun i j => i = j /\ (i = None \/ i = Some a0))).
  - destruct axis as [a|]; [|apply sim_ret; by split; [|left]]. rewrite (this_index y a0 a) by (try done; apply H).
    case_decide; cbn [of_opt mbind res_bind]; apply sim_ret; by split; [|right].
  - intros i j [<- Hi]. rewrite (check_numeric_same _ _ _ _ (Hnp _ _ _ _ _ _ (proj1 H))). apply sim_bind_same. intros [] _.
    destruct norm; try apply sim_err; eapply lanewise_reorder; try done; apply ranking_pointwise.
Qed.
Lemma normal_valid f y axis z : normal_method f -> valid y -> f y axis = Ok z -> valid z.
Proof. intros Hf Hv. destruct Hf; [by apply demean_valid|by apply demedian_valid|by apply zscore_valid|by apply ranking_valid]. Qed.
Lemma normal_reorder f y a0 l l' y' axis z : normal_method f -> valid y -> llabel y !! a0 = Some l -> part_of y a0 l' y' -> l' ≡ₚ l ->
  match axis with None => True | Some a => axis_is y a a0 end -> f y axis = Ok z -> exists z', f y' axis = Ok z' /\ part_of z a0 l' z'.
Proof.
  intros Hf Hv Hl Hp Hperm Hax Hz. destruct (part_lreorders y a0 l l' y' Hv Hl Hp Hperm) as [ps H]. pose proof (normal_valid f y axis z Hf Hv Hz) as Hvz.
  assert (Hgo : forall r r', sim (npicks ps a0) r r' -> (x ← r; Ok (Larry x (llabel y))) = Ok z -> exists z', (x ← r'; Ok (Larry x (llabel y'))) = Ok z' /\ part_of z a0 l' z').
  { intros r r' Hs Hr. apply bind_ok in Hr as (x & Hx & [= <-]). destruct (Hs x Hx) as (x' & -> & Hpx). eexists. split; [done|].
    eapply lpicks_part. eapply lift; [apply H|done|done]. }
  destruct Hf; (eapply Hgo; [|exact Hz]).
  - eapply on_axis_reorder; [eexists; apply centre_pointwise|done|done].
  - eapply on_axis_reorder; [eexists; apply centre_pointwise|done|done].
  - eapply on_axis_reorder; [apply zscore_pointwise|done|done].
  - by eapply ranking_reorder.
Qed.
Lemma summary_flip f y axis ax y' : summary_method f -> valid y -> axis_is y axis ax -> flipaxis y (Some axis) = Ok y' -> f y' (Some axis) = f y (Some axis) /\ f y' None = f y None.
Proof.
  intros Hf Hv Hia Hy.
  destruct (lookup_lt_is_Some_2 (llabel y) ax) as [l Hl]; [apply Hia|]. pose proof (flip_part y axis ax l y' Hv Hia Hl Hy) as Hp.
  split; (eapply (summary_reorder f y ax l (reverse l)); try done; apply reverse_Permutation).
Qed.
Lemma summary_sort f y axis ax rev y' : summary_method f -> valid y -> axis_is y axis ax -> sortaxis y (Some axis) rev = Ok y' -> f y' (Some axis) = f y (Some axis) /\ f y' None = f y None.
Proof.
  intros Hf Hv Hia Hy.
  destruct (lookup_lt_is_Some_2 (llabel y) ax) as [l Hl]; [apply Hia|]. destruct (sort_part y axis ax rev l y' Hv Hia Hl Hy) as (l' & Hp & Hperm).
  split; by eapply (summary_reorder f y ax l l').
Qed.
