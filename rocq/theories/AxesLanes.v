(** Methods that work along one axis do not care about the order of the axes. *)
From Verif Require Export AxesCells CommuteLanes.

(** Axis [axis] of [y] is axis [axis'] of [y']. *)
Definition same_axis (os : list nat) (y y' : larry) (axis axis' : Z) (ax k : nat) : Prop :=
  lperms os y y' /\ axis_is y axis ax /\ axis_is y' axis' k /\ os !! k = Some ax.
Definition lprel (os : list nat) (z z' : larry) : Prop := nperms os (lx z) (lx z') /\ llabel z' = permute os (llabel z).
Definition lane_turns (f : larry -> Z -> res larry) : Prop := forall os y y' axis axis' ax k,
  same_axis os y y' axis axis' ax k -> sim (lprel os) (f y axis) (f y' axis').

Lemma sa_n os y y' axis axis' ax k : same_axis os y y' axis axis' ax k -> nperms os (lx y) (lx y').
Proof. by intros ((_ & _ & ? & _) & _). Qed.
Lemma sa_dt os y y' axis axis' ax k : same_axis os y y' axis axis' ax k -> nd_dtype (lx y') = nd_dtype (lx y).
Proof. intros H. apply (sa_n _ _ _ _ _ _ _ H). Qed.
Lemma sa_arr os y y' axis axis' ax k : same_axis os y y' axis axis' ax k -> perms os (nd_arr (lx y)) (nd_arr (lx y')).
Proof. intros H. apply (sa_n _ _ _ _ _ _ _ H). Qed.
Lemma lperms_order os y y' : lperms os y y' -> perm_of os (length (llabel y)).
Proof.
  intros ((_ & _ & Hs & _) & _ & (_ & _ & _ & Ho & _) & _). change (shape (nd_arr (lx y))) with (lshape y) in Ho. rewrite <-Hs in Ho. by rewrite fmap_length in Ho.
Qed.
Lemma sa_py os y y' axis axis' ax k : same_axis os y y' axis axis' ax k -> py_axis y axis = Ok ax.
Proof. intros (_ & ?%py_axis_is & _). done. Qed.
Lemma sa_py' os y y' axis axis' ax k : same_axis os y y' axis axis' ax k -> py_axis y' axis' = Ok k.
Proof. intros (_ & _ & ?%py_axis_is & _). done. Qed.
Lemma sa_ix os y y' axis axis' ax k : same_axis os y y' axis axis' ax k -> py_index (nd_ndim (lx y)) axis = Some ax.
Proof. intros ((Hv & _) & Ha & _). apply py_index_Some. change (nd_ndim (lx y)) with (lndim y). rewrite <-(valid_ndim y Hv). apply Ha. Qed.
Lemma sa_ix' os y y' axis axis' ax k : same_axis os y y' axis axis' ax k -> py_index (nd_ndim (lx y')) axis' = Some k.
Proof. intros ((_ & Hv & _) & _ & Ha & _). apply py_index_Some. change (nd_ndim (lx y')) with (lndim y'). rewrite <-(valid_ndim y' Hv). apply Ha. Qed.
Lemma sa_k os y y' axis axis' ax k : same_axis os y y' axis axis' ax k -> os !! k = Some ax.
Proof. by intros (_ & _ & _ & ?). Qed.
Lemma sa_axlen os y y' axis axis' ax k : same_axis os y y' axis axis' ax k -> lshape y' !! k = lshape y !! ax.
Proof. intros H. eapply perms_axlen; [by eapply sa_arr|by eapply sa_k]. Qed.
Lemma sa_label os y y' axis axis' ax k : same_axis os y y' axis axis' ax k -> axis_label y' k = axis_label y ax.
Proof.
  intros H. pose proof H as (Hl & _ & _ & Hk). unfold axis_label. pose proof (lperms_order _ _ _ Hl) as Ho. destruct Hl as (_ & _ & _ & ->).
  by rewrite (permute_lookup_Some _ _ _ _ Ho Hk).
Qed.
Lemma sa_size os y y' axis axis' ax k : same_axis os y y' axis axis' ax k -> nd_size (lx y') = nd_size (lx y).
Proof. intros H. apply (perms_size os (nd_arr (lx y)) (nd_arr (lx y'))). by eapply sa_arr. Qed.
Lemma sa_check os y y' axis axis' ax k : same_axis os y y' axis axis' ax k -> check_numeric (lx y') = check_numeric (lx y).
Proof. intros H. unfold check_numeric. by rewrite (sa_dt _ _ _ _ _ _ _ H). Qed.

Lemma lprel_ret os y y' x x' : lperms os y y' -> nperms os x x' -> sim (lprel os) (Ok (Larry x (llabel y))) (Ok (Larry x' (llabel y'))).
Proof. intros Hlp H. apply sim_ret. split_and!; [done|apply Hlp..]. Qed.
Lemma lprel_same os y y' : lperms os y y' -> sim (lprel os) (Ok y) (Ok y').
Proof. intros Hlp. apply sim_ret. split_and!; apply Hlp. Qed.
Lemma lprel_bind os y y' r r' : lperms os y y' -> sim (nperms os) r r' ->
  sim (lprel os) (x ← r; Ok (Larry x (llabel y))) (x ← r'; Ok (Larry x (llabel y'))).
Proof. intros Hlp H. eapply sim_bind; [exact H|]. intros x x' Hx. by apply lprel_ret. Qed.
Lemma lprel_relabel os y y' k ax m x x' : lperms os y y' -> os !! k = Some ax -> nperms os x x' ->
  sim (lprel os) (Ok (Larry x (<[ax := m]> (llabel y)))) (Ok (Larry x' (<[k := m]> (llabel y')))).
Proof.
  intros Hl Hk H. pose proof (lperms_order _ _ _ Hl) as Ho. destruct Hl as (_ & _ & _ & ->). apply sim_ret. split; [done|]. simpl. symmetry. by apply permute_insert.
Qed.

Lemma along_psim {A B} os e (f : list A -> list B) a a' ax k : perms os a a' -> os !! k = Some ax ->
  sim (perms os) (of_opt e (along f a ax)) (of_opt e (along f a' k)).
Proof. intros Hp Hne. apply sim_opt. intros b Hb. by eapply perms_along. Qed.
Lemma lanewise_psim os f x x' ax k : nperms os x x' -> os !! k = Some ax ->
  sim (nperms os) (lanewise f x (Some ax)) (lanewise f x' (Some k)).
Proof.
  intros Hp Hk. unfold lanewise. replace (check_numeric x') with (check_numeric x) by (unfold check_numeric; by rewrite (proj1 Hp)). apply sim_bind_same. intros _ _.
  eapply sim_bind; [apply along_psim; [apply Hp|done]|]. intros b b' Hb. by apply nperms_ret.
Qed.

Lemma push_turns window : lane_turns (fun y axis => larry_push y window axis).
Proof.
  intros os y y' axis axis' ax k H. unfold larry_push. unfold ldtype. rewrite (sa_dt _ _ _ _ _ _ _ H). unfold norm_axis.
  pose proof (sa_ix _ _ _ _ _ _ _ H) as E. pose proof (sa_ix' _ _ _ _ _ _ _ H) as E'. change (nd_ndim (lx y)) with (lndim y) in E. change (nd_ndim (lx y')) with (lndim y') in E'. rewrite E, E'. cbn [of_opt mbind res_bind].
  destruct (nd_dtype (lx y)); try apply sim_err;
    (eapply sim_bind; [apply along_psim; [by eapply sa_arr|by eapply sa_k]|]; intros b b' Hb; apply (lprel_ret os y y'); [apply H|by split]).
Qed.
Lemma on_axis_psim f os y y' axis axis' ax k : same_axis os y y' axis axis' ax k ->
  sim (nperms os) (on_axis f (lx y) (Some axis)) (on_axis f (lx y') (Some axis')).
Proof.
  intros H. unfold on_axis, norm_axis. rewrite (sa_ix _ _ _ _ _ _ _ H), (sa_ix' _ _ _ _ _ _ _ H).
  cbn [of_opt mbind res_bind]. apply lanewise_psim; [by eapply sa_n|by eapply sa_k].
Qed.
Lemma demean_turns : lane_turns (fun y axis => larry_demean y (Some axis)).
Proof. intros os y y' axis axis' ax k H. eapply lprel_bind; [apply H|by eapply on_axis_psim]. Qed.
Lemma demedian_turns : lane_turns (fun y axis => larry_demedian y (Some axis)).
Proof. intros os y y' axis axis' ax k H. eapply lprel_bind; [apply H|by eapply on_axis_psim]. Qed.
Lemma zscore_turns sqrt : lane_turns (fun y axis => larry_zscore sqrt y (Some axis)).
Proof. intros os y y' axis axis' ax k H. eapply lprel_bind; [apply H|by eapply on_axis_psim]. Qed.
Lemma ranking_turns ndtri norm : lane_turns (fun y axis => larry_ranking ndtri y (Some axis) norm).
Proof.
  intros os y y' axis axis' ax k H. eapply lprel_bind; [apply H|]. unfold np_ranking.
  rewrite (sa_ix _ _ _ _ _ _ _ H), (sa_ix' _ _ _ _ _ _ _ H), (sa_check _ _ _ _ _ _ _ H).
  eapply (sim_bind (fun o o' => o = Some ax /\ o' = Some k)).
  - do 2 case_decide; cbn [of_opt fmap res_fmap mbind res_bind]; by apply sim_ret.
  - intros o o' [-> ->]. apply sim_bind_same. intros _ _.
    destruct norm; try apply sim_err; (apply lanewise_psim; [by eapply sa_n|by eapply sa_k]).
Qed.
Lemma quantile_turns argsort q : lane_turns (fun y axis => larry_quantile argsort y q (Some axis)).
Proof.
  intros os y y' axis axis' ax k H. eapply lprel_bind; [apply H|]. unfold np_quantile.
  case_decide; [apply sim_err|]. case_decide.
  - rewrite !lanewise_map by apply H. rewrite (sa_check _ _ _ _ _ _ _ H). apply sim_bind_same. intros _ _.
    apply nperms_ret, perms_amap. by eapply sa_arr.
  - rewrite (sa_ix _ _ _ _ _ _ _ H), (sa_ix' _ _ _ _ _ _ _ H). cbn [of_opt mbind res_bind].
    change (nd_shape (lx y')) with (lshape y'). rewrite (sa_axlen _ _ _ _ _ _ _ H). apply sim_bind_same. intros n _.
    case_decide; [apply sim_err|]. rewrite (sa_size _ _ _ _ _ _ _ H). case_decide; [apply sim_err|].
    apply lanewise_psim; [by eapply sa_n|by eapply sa_k].
Qed.
Lemma move_turns op window : lane_turns (fun y axis => larry_move op y window (Some axis)).
Proof.
  intros os y y' axis axis' ax k H. eapply lprel_bind; [apply H|]. unfold bn_move.
  rewrite (sa_ix _ _ _ _ _ _ _ H), (sa_ix' _ _ _ _ _ _ _ H). cbn [of_opt mbind res_bind].
  unfold axlen. change (shape (nd_arr (lx y'))) with (lshape y'). rewrite (sa_axlen _ _ _ _ _ _ _ H).
  rewrite (sa_check _ _ _ _ _ _ _ H). apply sim_bind_same. intros n _. apply sim_bind_same. intros _ _.
  case_decide; [apply sim_err|]. apply lanewise_psim; [by eapply sa_n|by eapply sa_k].
Qed.
Lemma slice_axis_psim {A} os (a a' : arr A) s ax k : perms os a a' -> os !! k = Some ax ->
  sim (perms os) (slice_axis a s ax) (slice_axis a' s k).
Proof.
  intros Hp Hk. unfold slice_axis, axlen. rewrite (perms_axlen _ _ _ _ _ Hp Hk). apply sim_bind_same. intros n _. apply sim_bind_same. intros qs _.
  apply sim_opt. intros b Hb. by eapply perms_take_pos.
Qed.
Lemma movingsum_forward_turns window skip norm : lane_turns (fun y axis => larry_movingsum_forward y window skip axis norm).
Proof.
  intros os y y' axis axis' ax k H. eapply lprel_bind; [apply H|]. unfold np_movingsum_forward. pose proof (sa_k _ _ _ _ _ _ _ H) as Hk.
  rewrite (sa_ix _ _ _ _ _ _ _ H), (sa_ix' _ _ _ _ _ _ _ H). cbn [of_opt mbind res_bind].
  intros z Hz. apply bind_ok in Hz as (b & Hb & Hz).
  destruct (slice_axis_psim os _ (nd_arr (lx y')) flip_slice ax k (sa_arr _ _ _ _ _ _ _ H) Hk b Hb) as (b' & Hb' & Hpb).
  rewrite Hb'. cbn [mbind res_bind]. pose proof (slice_axis_ndim _ _ _ _ Hb) as Hnb. pose proof (slice_axis_ndim _ _ _ _ Hb') as Hnb'.
  revert z Hz. eapply sim_bind.
  - unfold np_movingsum. case_decide; [apply sim_err|]. unfold nd_ndim, nd_shape. cbn [nd_arr nd_dtype].
    rewrite Hnb, Hnb'. pose proof (sa_ix _ _ _ _ _ _ _ H) as E. pose proof (sa_ix' _ _ _ _ _ _ _ H) as E'. unfold nd_ndim, nd_shape in E, E'. rewrite E, E'. cbn [of_opt mbind res_bind].
    unfold axlen. rewrite (perms_axlen _ _ _ _ _ Hpb Hk). apply sim_bind_same. intros n _. case_decide; [apply sim_err|]. case_decide; [apply sim_err|].
    apply (lanewise_psim os _ (Nda (nd_dtype (lx y)) b) (Nda (nd_dtype (lx y')) b')); [split; [by eapply sa_dt|done]|done].
  - intros m m' Hm. cbn beta. eapply sim_bind; [apply slice_axis_psim; [apply Hm|done]|]. intros c c' Hc.
    rewrite (proj1 Hm). by apply nperms_ret.
Qed.
Lemma group_turns f g : lane_turns (fun y axis => larry_group f y (Some g) axis).
Proof.
  intros os y y' axis axis' ax k H. unfold larry_group.
  assert (group_align y' (Some g) axis' = group_align y (Some g) axis) as ->.
  { unfold group_align. case_decide; [done|]. rewrite (sa_py _ _ _ _ _ _ _ H), (sa_py' _ _ _ _ _ _ _ H). cbn [mbind res_bind]. by rewrite (sa_label _ _ _ _ _ _ _ H). }
  apply sim_bind_same. intros groups _. eapply lprel_bind; [apply H|]. unfold np_group. apply sim_bind_same. intros ug _.
  destruct ug as [|u ug]; [apply nperms_ret, perms_full_like; by eapply sa_arr|].
  rewrite (sa_ix _ _ _ _ _ _ _ H), (sa_ix' _ _ _ _ _ _ _ H). cbn [of_opt mbind res_bind].
  apply lanewise_psim; [by eapply sa_n|by eapply sa_k].
Qed.

Lemma test_mask_psim os p x x' : nperms os x x' -> sim (fun m m' => perms os m m' /\ shape m = nd_shape x) (test_mask p x) (test_mask p x').
Proof.
  intros [Hd Hp]. unfold test_mask. rewrite Hd. destruct (nd_dtype x); try apply sim_err; apply sim_ret; (split; [by apply perms_amap|done]).
Qed.
Lemma any_true_perms os m m' : perms os m m' -> any_true m' = any_true m.
Proof.
  intros Hp. unfold any_true. pose proof (perms_data _ _ _ Hp) as Hd. clear Hp. induction Hd; simpl; [done|congruence| |congruence].
  unfold id. destruct x, y; done.
Qed.
Lemma guarded_psim os x x' m m' v : nperms os x x' -> perms os m m' -> shape m = nd_shape x ->
  sim (nperms os) (if any_true m then putmask_scalar x m v else Ok x) (if any_true m' then putmask_scalar x' m' v else Ok x').
Proof. intros Hx Hm Hs. rewrite (any_true_perms _ _ _ Hm). destruct (any_true m); [by apply putmask_scalar_psim|by apply sim_ret]. Qed.
Lemma cum_turns op : lane_turns (fun y axis => larry_cum op y (Some axis)).
Proof.
  intros os y y' axis axis' ax k H. unfold larry_cum.
  eapply sim_bind; [apply test_mask_psim; by eapply sa_n|]. intros m m' [Hm Hsm].
  intros z Hz. apply bind_ok in Hz as (x1 & Hx1 & Hz).
  destruct (putmask_scalar_psim os _ _ _ _ _ (sa_n _ _ _ _ _ _ _ H) Hm Hsm _ Hx1) as (x1' & Hx1' & Hp1). rewrite Hx1'. cbn [mbind res_bind].
  assert (Hs1 : nd_shape x1 = nd_shape (lx y)).
  { unfold putmask_scalar in Hx1. apply bind_ok in Hx1 as (r & _ & [= <-]). done. }
  assert (Hs1' : nd_ndim x1' = nd_ndim (lx y')).
  { unfold nd_ndim, nd_shape in *. rewrite (perms_ndim os _ _ (proj2 Hp1)), Hs1. symmetry. eapply perms_ndim. by eapply sa_arr. }
  apply bind_ok in Hz as (x2 & Hx2 & Hz). unfold np_cum in *. unfold norm_axis in *.
  pose proof (sa_ix _ _ _ _ _ _ _ H) as E. unfold nd_ndim in Hx2, E. rewrite Hs1, E in Hx2. rewrite Hs1', (sa_ix' _ _ _ _ _ _ _ H). cbn [of_opt mbind res_bind] in *.
  assert (Hb : nperms os (bool_to_int x1) (bool_to_int x1')).
  { unfold bool_to_int. rewrite (proj1 Hp1). destruct (nd_dtype x1) eqn:E1; try done; split; try (simpl; congruence). simpl. apply perms_amap, Hp1. }
  assert (Hsb : nd_shape (bool_to_int x1) = nd_shape x1) by (unfold bool_to_int; by destruct (nd_dtype x1)).
  apply bind_ok in Hx2 as (b & Hbb & [= <-]). apply of_opt_ok in Hbb. pose proof (along_shape _ _ _ _ Hbb) as Hsh.
  destruct (perms_along os _ _ _ k ax b (proj2 Hb) (sa_k _ _ _ _ _ _ _ H) Hbb) as (b' & Hb' & Hpb). rewrite Hb'.
  cbn [of_opt mbind res_bind]. revert z Hz. eapply lprel_bind; [apply H|]. apply guarded_psim; [split; [apply Hb|done]|done|].
  unfold nd_shape in *. simpl. by rewrite Hsh, Hsb, Hs1.
Qed.

(** * Rearranging an axis *)
Lemma np_take_psim {A} os (a a' : arr A) ids ax k : perms os a a' -> os !! k = Some ax -> sim (perms os) (np_take a ids ax) (np_take a' ids k).
Proof.
  intros Hp Hk. unfold np_take, axlen. rewrite (perms_axlen _ _ _ _ _ Hp Hk). apply sim_bind_same. intros n _. apply sim_bind_same. intros qs _.
  apply sim_opt. intros b Hb. by eapply perms_take_pos.
Qed.
Lemma take_turns ids : lane_turns (fun y axis => larry_take y ids axis).
Proof.
  intros os y y' axis axis' ax k H. unfold larry_take. rewrite (sa_py _ _ _ _ _ _ _ H), (sa_py' _ _ _ _ _ _ _ H).
  cbn [mbind res_bind]. rewrite (sa_label _ _ _ _ _ _ _ H). apply sim_bind_same. intros la _. apply sim_bind_same. intros m _.
  destruct (py_nodup m); [|apply sim_err]. eapply sim_bind; [apply np_take_psim; [by eapply sa_arr|by eapply sa_k]|]. intros b b' Hb.
  eapply lprel_relabel; [apply H|by eapply sa_k|]. split; [by eapply sa_dt|done].
Qed.
Lemma flip_turns : lane_turns (fun y axis => flipaxis y (Some axis)).
Proof.
  intros os y y' axis axis' ax k H. unfold flipaxis. cbn [axes_of foldM].
  assert (sim (lprel os) (flip_one y axis) (flip_one y' axis')) as K.
  { unfold flip_one. rewrite (sa_py _ _ _ _ _ _ _ H), (sa_py' _ _ _ _ _ _ _ H).
    cbn [mbind res_bind]. rewrite (sa_label _ _ _ _ _ _ _ H). apply sim_bind_same. intros la _. apply sim_bind_same. intros m _.
    eapply sim_bind; [apply slice_axis_psim; [by eapply sa_arr|by eapply sa_k]|]. intros b b' Hb. eapply lprel_relabel; [apply H|by eapply sa_k|]. split; [by eapply sa_dt|done]. }
  eapply sim_bind; [exact K|]. intros z z' Hz. by apply sim_ret.
Qed.
Lemma lag_turns n : lane_turns (fun y axis => lag y n (Some axis)).
Proof.
  intros os y y' axis axis' ax k H. unfold lag. cbn [of_opt mbind res_bind].
  rewrite (sa_py _ _ _ _ _ _ _ H), (sa_py' _ _ _ _ _ _ _ H). cbn [mbind res_bind]. rewrite (sa_label _ _ _ _ _ _ _ H).
  case_decide; [|case_decide].
  - apply sim_bind_same. intros la _. apply sim_bind_same. intros m _.
    eapply sim_bind; [apply slice_axis_psim; [by eapply sa_arr|by eapply sa_k]|]. intros b b' Hb. eapply lprel_relabel; [apply H|by eapply sa_k|]. split; [by eapply sa_dt|done].
  - apply sim_bind_same. intros la _. apply sim_bind_same. intros m _.
    eapply sim_bind; [apply slice_axis_psim; [by eapply sa_arr|by eapply sa_k]|]. intros b b' Hb. eapply lprel_relabel; [apply H|by eapply sa_k|]. split; [by eapply sa_dt|done].
  - rewrite !copy_eq. apply lprel_same, H.
Qed.
Lemma put_axis_psim os x x' ids ax k v : nperms os x x' -> os !! k = Some ax -> sim (nperms os) (put_axis x ids ax v) (put_axis x' ids k v).
Proof.
  intros [Hd Hp] Hk. unfold put_axis, axlen. rewrite (perms_axlen _ _ _ _ _ Hp Hk), Hd. apply sim_bind_same. intros n _.
  case_decide; [|apply sim_err]. apply sim_bind_same. intros w _. eapply sim_bind.
  - apply sim_opt. intros b Hb. eapply (perms_build os (nd_arr x) (nd_arr x')); [exact Hp|exact Hb|]. intros idx Hr. cbn beta. pose proof Hp as (_ & _ & Ho & _ & Hg).
    rewrite (permute_lookup_Some os idx k ax) by (done || by rewrite (in_range_length _ _ Hr)). destruct (idx !! ax); simpl; [|done]. case_decide; [done|].
    by rewrite (Hg idx Hr).
  - intros b b' Hb. by apply nperms_ret.
Qed.
Lemma nans_psim os sh dt : perm_of os (length sh) -> sim (nperms os) (nans sh dt) (nans (permute os sh) dt).
Proof. intros Ho. unfold nans. destruct dt; try apply sim_err; apply nperms_ret; by apply perms_full. Qed.
Lemma morph_turns label : lane_turns (fun y axis => morph y label axis).
Proof.
  intros os y y' axis axis' ax k H. unfold morph. case_decide; [apply sim_err|].
  rewrite decide_False.
  2: { destruct H as ((_ & Hv' & _) & _ & [H1 H2] & _). rewrite <-(valid_ndim y' Hv'). lia. }
  rewrite (sa_py _ _ _ _ _ _ _ H), (sa_py' _ _ _ _ _ _ _ H). cbn [mbind res_bind]. rewrite (sa_label _ _ _ _ _ _ _ H).
  apply sim_bind_same. intros old _. case_decide; [rewrite !copy_eq; apply lprel_same, H|].
  destruct (listmap_fill old label 0) as [idx miss]. pose proof (sa_n _ _ _ _ _ _ _ H) as [Hd Hp]. unfold ldtype. rewrite Hd. pose proof (sa_k _ _ _ _ _ _ _ H) as Hk.
  eapply sim_bind.
  - case_decide.
    + cbn zeta. change (lshape y') with (shape (nd_arr (lx y'))). change (lshape y) with (shape (nd_arr (lx y))).
      pose proof Hp as (_ & _ & Ho & Hs & _). rewrite Hs. rewrite <-(permute_insert os _ k ax) by done. apply nans_psim. by rewrite insert_length.
    + eapply sim_bind.
      * unfold nda_take. eapply sim_bind; [by apply np_take_psim|]. intros b b' Hb. rewrite Hd. by apply nperms_ret.
      * intros x x' Hx. cbn beta. destruct miss as [|j miss]; [by apply sim_ret|]. rewrite (proj1 Hx).
        destruct (missing_marker (nd_dtype x)) as [mk|]; [by apply put_axis_psim|]. cbn [of_opt]. cbn zeta.
        apply sim_bind_same. intros mk _. apply put_axis_psim; [|done]. split; [done|]. simpl. apply perms_amap, Hx.
  - intros x x' Hx. cbn beta. destruct (py_nodup label); [|apply sim_err]. eapply lprel_relabel; [apply H|done|done].
Qed.
Lemma sortaxis_turns reverse : lane_turns (fun y axis => sortaxis y (Some axis) reverse).
Proof.
  intros os y y' axis axis' ax k H. unfold sortaxis. cbn [axes_of foldM].
  assert (sim (lprel os) (sortaxis_step reverse y y axis) (sortaxis_step reverse y' y' axis')) as K.
  { unfold sortaxis_step. rewrite (sa_py _ _ _ _ _ _ _ H), (sa_py' _ _ _ _ _ _ _ H). cbn [mbind res_bind]. rewrite (sa_label _ _ _ _ _ _ _ H).
    assert (py_get (lshape y') axis' = py_get (lshape y) axis) as ->.
    { unfold py_get. pose proof (sa_ix _ _ _ _ _ _ _ H) as E. pose proof (sa_ix' _ _ _ _ _ _ _ H) as E'. change (nd_ndim (lx y)) with (length (lshape y)) in E.
      change (nd_ndim (lx y')) with (length (lshape y')) in E'. rewrite E, E'. simpl. by rewrite (sa_axlen _ _ _ _ _ _ _ H). }
    apply sim_bind_same. intros n _. case_decide; [|rewrite !copy_eq; apply lprel_same, H]. apply sim_bind_same. intros la _.
    apply sim_bind_same. intros index _. by eapply morph_turns. }
  eapply sim_bind; [exact K|]. intros z z' Hz. by apply sim_ret.
Qed.

Lemma lane_method_turns f : lane_method f -> lane_turns f.
Proof.
  intros H. destruct H.
  - apply cum_turns.
  - apply push_turns.
  - apply ranking_turns.
  - apply quantile_turns.
  - apply demean_turns.
  - apply demedian_turns.
  - apply zscore_turns.
  - apply move_turns.
  - apply movingsum_forward_turns.
  - apply group_turns.
  - apply group_turns.
  - apply group_turns.
  - apply lag_turns.
  - apply take_turns.
  - apply flip_turns.
  - apply sortaxis_turns.
  - apply morph_turns.
Qed.
