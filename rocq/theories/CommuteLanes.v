(** Methods that work along one axis commute with picking labels of another. *)
From Verif Require Export CommuteFacts.

Definition lrel (ps : list nat) (a0 : nat) (l l' : list lab) (z z' : larry) : Prop :=
  npicks ps a0 (lx z) (lx z') /\ llabel z !! a0 = Some l /\ llabel z' = <[a0 := l']> (llabel z).
Definition lane_commutes (f : larry -> Z -> res larry) : Prop := forall ps a0 l l' y y' axis ax,
  lpicks ps a0 l l' y y' -> ps <> [] -> axis_is y axis ax -> ax <> a0 -> sim (lrel ps a0 l l') (f y axis) (f y' axis).
Lemma lp_v ps a0 l l' y y' : lpicks ps a0 l l' y y' -> valid y. Proof. by intros (? & _). Qed.
Lemma lp_v' ps a0 l l' y y' : lpicks ps a0 l l' y y' -> valid y'. Proof. by intros (_ & ? & _). Qed.
Lemma Hnp ps a0 l l' y y' : lpicks ps a0 l l' y y' -> npicks ps a0 (lx y) (lx y'). Proof. by intros (_ & _ & ? & _). Qed.
Lemma lp_len ps a0 l l' y y' : lpicks ps a0 l l' y y' -> length (llabel y') = length (llabel y).
Proof. intros (_ & _ & _ & _ & -> & _). apply insert_length. Qed.
Lemma lp_ndim' ps a0 l l' y y' : lpicks ps a0 l l' y y' -> lndim y' = lndim y.
Proof. intros H. rewrite <-(valid_ndim y), <-(valid_ndim y') by apply H. by eapply lp_len. Qed.
Lemma lp_axis y axis ax : axis_is y axis ax -> py_axis y axis = Ok ax.
Proof. by intros ?%py_axis_is. Qed.
Lemma lp_axis' ps a0 l l' y y' axis ax : lpicks ps a0 l l' y y' -> axis_is y axis ax -> py_axis y' axis = Ok ax.
Proof. intros H Hax. apply py_axis_is. unfold axis_is. rewrite (lp_len _ _ _ _ _ _ H). apply Hax. Qed.
Lemma lp_index ps a0 l l' y y' axis ax : lpicks ps a0 l l' y y' -> axis_is y axis ax -> forall n, n = lndim y -> py_index n axis = Some ax.
Proof. intros H Hax n ->. apply py_index_Some. rewrite <-(valid_ndim y) by apply H. apply Hax. Qed.
Lemma lp_lt ps a0 l l' y y' axis ax : lpicks ps a0 l l' y y' -> axis_is y axis ax -> ax < length (shape (larr y)).
Proof. intros H Hax. change (ax < lndim y). rewrite <-(valid_ndim y) by apply H. apply Hax. Qed.
Lemma lp_label ps a0 l l' y y' ax : lpicks ps a0 l l' y y' -> ax <> a0 -> llabel y' !! ax = llabel y !! ax.
Proof. intros (_ & _ & _ & _ & -> & _) ?. by apply list_lookup_insert_ne. Qed.
Lemma lp_axis_label ps a0 l l' y y' ax : lpicks ps a0 l l' y y' -> ax <> a0 -> axis_label y' ax = axis_label y ax.
Proof. intros H Hne. unfold axis_label. by rewrite (lp_label _ _ _ _ _ _ _ H Hne). Qed.
Lemma lp_shape ps a0 l l' y y' ax : lpicks ps a0 l l' y y' -> ax <> a0 -> lshape y' !! ax = lshape y !! ax.
Proof. intros H Hne. eapply picks_shape_ne; [apply H|done]. Qed.
Lemma lp_size0 ps a0 l l' y y' : lpicks ps a0 l l' y y' -> ps <> [] -> nd_size (lx y') = 0 <-> nd_size (lx y) = 0.
Proof.
  intros H Hne. eapply (picks_size0 ps a0 (nd_arr (lx y)) (nd_arr (lx y'))); [apply H|done].
Qed.
Lemma lrel_ret ps a0 l l' y y' x x' : lpicks ps a0 l l' y y' -> npicks ps a0 x x' -> sim (lrel ps a0 l l') (Ok (Larry x (llabel y))) (Ok (Larry x' (llabel y'))).
Proof. intros Hlp H. apply sim_ret. split_and!; [done|apply Hlp..]. Qed.
Lemma lrel_same ps a0 l l' y y' : lpicks ps a0 l l' y y' -> sim (lrel ps a0 l l') (Ok y) (Ok y').
Proof. intros Hlp. apply sim_ret. split_and!; apply Hlp. Qed.
Lemma lrel_bind ps a0 l l' y y' r r' : lpicks ps a0 l l' y y' -> sim (npicks ps a0) r r' ->
  sim (lrel ps a0 l l') (x ← r; Ok (Larry x (llabel y))) (x ← r'; Ok (Larry x (llabel y'))).
Proof. intros Hlp H. eapply sim_bind; [exact H|]. intros x x' Hx. by apply lrel_ret. Qed.
Lemma lrel_relabel ps a0 l l' y y' ax m x x' : lpicks ps a0 l l' y y' -> ax <> a0 -> npicks ps a0 x x' ->
  sim (lrel ps a0 l l') (Ok (Larry x (<[ax := m]> (llabel y)))) (Ok (Larry x' (<[ax := m]> (llabel y')))).
Proof.
  intros (_ & _ & _ & Hl & -> & _) Hne H. apply sim_ret. split_and!; [done|simpl; by rewrite list_lookup_insert_ne|].
  simpl. by apply list_insert_commute.
Qed.
Lemma sim_opt {A B} (R : A -> B -> Prop) e (o : option A) (o' : option B) :
  (forall a, o = Some a -> exists b, o' = Some b /\ R a b) -> sim R (of_opt e o) (of_opt e o').
Proof. intros H a Ha. apply of_opt_ok in Ha. destruct (H a Ha) as (b & -> & HR). by exists b. Qed.

Lemma check_numeric_same x x' ps a0 : npicks ps a0 x x' -> check_numeric x' = check_numeric x.
Proof. intros [H _]. unfold check_numeric. by rewrite H. Qed.
Lemma along_sim {A B} ps a0 e (f : list A -> list B) a a' ax : picks ps a0 a a' -> ax <> a0 -> ax < length (shape a) ->
  sim (picks ps a0) (of_opt e (along f a ax)) (of_opt e (along f a' ax)).
Proof. intros Hp Hne Hlt. apply sim_opt. intros b Hb. by eapply picks_along. Qed.
Lemma lanewise_sim ps a0 f x x' ax : npicks ps a0 x x' -> ax <> a0 -> ax < length (nd_shape x) ->
  sim (npicks ps a0) (lanewise f x (Some ax)) (lanewise f x' (Some ax)).
Proof.
  intros Hp Hne Hlt. unfold lanewise. rewrite (check_numeric_same _ _ _ _ Hp). apply sim_bind_same. intros _ _.
  eapply sim_bind; [apply along_sim; [apply Hp|done|done]|]. intros b b' Hb. by apply npicks_ret.
Qed.

Lemma push_commutes window : lane_commutes (fun y axis => larry_push y window axis).
Proof.
  intros ps a0 l l' y y' axis ax Hlp Hps Hax Hne. unfold larry_push. rewrite (lp_ndim' _ _ _ _ _ _ Hlp). unfold ldtype.
  rewrite (proj1 (Hnp _ _ _ _ _ _ Hlp)). unfold norm_axis. rewrite (lp_index ps a0 l l' y y' axis ax Hlp Hax (lndim y) eq_refl). cbn [of_opt mbind res_bind].
  destruct (nd_dtype (lx y)); try apply sim_err;
    (eapply sim_bind; [apply along_sim; [apply Hlp|done|by eapply lp_lt]|]; intros b b' Hb; by apply (lrel_ret ps a0 l l' y y')).
Qed.
Lemma on_axis_sim f ps a0 l l' y y' axis ax : lpicks ps a0 l l' y y' -> axis_is y axis ax -> ax <> a0 ->
  sim (npicks ps a0) (on_axis f (lx y) (Some axis)) (on_axis f (lx y') (Some axis)).
Proof.
  intros Hlp Hax Hne. unfold on_axis, norm_axis. rewrite !(lp_index ps a0 l l' y y' axis ax Hlp Hax); [|by eapply lp_ndim'|done].
  cbn [of_opt mbind res_bind]. apply lanewise_sim; [apply Hlp|done|by eapply lp_lt].
Qed.
Lemma demean_commutes : lane_commutes (fun y axis => larry_demean y (Some axis)).
Proof. intros ps a0 l l' y y' axis ax Hlp Hps Hax Hne. eapply lrel_bind; [done|by eapply on_axis_sim]. Qed.
Lemma demedian_commutes : lane_commutes (fun y axis => larry_demedian y (Some axis)).
Proof. intros ps a0 l l' y y' axis ax Hlp Hps Hax Hne. eapply lrel_bind; [done|by eapply on_axis_sim]. Qed.
Lemma zscore_commutes sqrt : lane_commutes (fun y axis => larry_zscore sqrt y (Some axis)).
Proof. intros ps a0 l l' y y' axis ax Hlp Hps Hax Hne. eapply lrel_bind; [done|by eapply on_axis_sim]. Qed.
Lemma ranking_commutes ndtri norm : lane_commutes (fun y axis => larry_ranking ndtri y (Some axis) norm).
Proof.
  intros ps a0 l l' y y' axis ax Hlp Hps Hax Hne. eapply lrel_bind; [done|]. unfold np_ranking.
  rewrite !(lp_index ps a0 l l' y y' axis ax Hlp Hax); [|by eapply lp_ndim'|done]. rewrite (check_numeric_same _ _ _ _ (Hnp _ _ _ _ _ _ Hlp)).
  apply sim_bind_same. intros o Ho. apply sim_bind_same. intros _ _.
  assert (o = Some ax) as -> by (by destruct (decide (axis < 0)%Z); injection Ho as <-).
  destruct norm; try apply sim_err; (apply lanewise_sim; [apply Hlp|done|by eapply lp_lt]).
Qed.
Lemma on_nums_map (g : num -> num) dt vs : (dt = DFloat \/ dt = DInt) -> Forall (fun v => has_dtype dt v = true) vs ->
  on_nums (fun ns => g <$> ns) vs = (fun v => match to_num v with Some n => VFloat (g n) | None => v end) <$> vs.
Proof.
  intros Hdt. unfold on_nums. induction 1 as [|v vs Hv Hvs IH]; [done|]. cbn [omap list_omap].
  destruct Hdt as [->| ->]; destruct v; try done; csimpl; by f_equal.
Qed.
Lemma lanewise_map (g : num -> num) x : nda_wf x -> lanewise (fun ns => g <$> ns) x None =
  (_ ← check_numeric x; Ok (Nda DFloat (amap (fun v => match to_num v with Some n => VFloat (g n) | None => v end) (nd_arr x)))).
Proof.
  intros [_ Ht]. unfold lanewise, check_numeric. destruct (nd_dtype x) eqn:E; try done; cbn [mbind res_bind]; do 2 f_equal;
    unfold amap; f_equal; (eapply on_nums_map; [|exact Ht]; auto).
Qed.
Lemma quantile_commutes argsort q : lane_commutes (fun y axis => larry_quantile argsort y q (Some axis)).
Proof.
  intros ps a0 l l' y y' axis ax Hlp Hps Hax Hne. eapply lrel_bind; [done|]. unfold np_quantile.
  case_decide; [apply sim_err|]. case_decide.
  - rewrite !lanewise_map by apply Hlp. rewrite (check_numeric_same _ _ _ _ (Hnp _ _ _ _ _ _ Hlp)). apply sim_bind_same. intros _ _.
    apply npicks_ret, picks_amap, Hlp.
  - rewrite !(lp_index ps a0 l l' y y' axis ax Hlp Hax); [|by eapply lp_ndim'|done]. cbn [of_opt mbind res_bind].
    change (nd_shape (lx y')) with (lshape y'). rewrite (lp_shape ps a0 l l' y y' ax Hlp Hne). apply sim_bind_same. intros n _.
    case_decide; [apply sim_err|]. pose proof (lp_size0 ps a0 l l' y y' Hlp Hps) as Hs0.
    destruct (decide (nd_size (lx y) = 0)); [apply sim_err|]. rewrite decide_False by tauto.
    apply lanewise_sim; [apply Hlp|done|by eapply lp_lt].
Qed.
Lemma move_commutes op window : lane_commutes (fun y axis => larry_move op y window (Some axis)).
Proof.
  intros ps a0 l l' y y' axis ax Hlp Hps Hax Hne. eapply lrel_bind; [done|]. unfold bn_move.
  rewrite !(lp_index ps a0 l l' y y' axis ax Hlp Hax); [|by eapply lp_ndim'|done]. cbn [of_opt mbind res_bind].
  unfold axlen. change (shape (nd_arr (lx y'))) with (lshape y'). rewrite (lp_shape ps a0 l l' y y' ax Hlp Hne).
  rewrite (check_numeric_same _ _ _ _ (Hnp _ _ _ _ _ _ Hlp)). apply sim_bind_same. intros n _. apply sim_bind_same. intros _ _.
  case_decide; [apply sim_err|]. apply lanewise_sim; [apply Hlp|done|by eapply lp_lt].
Qed.
Lemma slice_axis_sim {A} ps a0 (a a' : arr A) s ax : picks ps a0 a a' -> ax <> a0 ->
  sim (picks ps a0) (slice_axis a s ax) (slice_axis a' s ax).
Proof.
  intros Hp Hne. unfold slice_axis, axlen. rewrite (picks_shape_ne _ _ _ _ _ Hp Hne). apply sim_bind_same. intros n _. apply sim_bind_same. intros qs _.
  apply sim_opt. intros b Hb. by eapply picks_take_pos.
Qed.
Lemma slice_axis_ndim {A} (a b : arr A) s ax : slice_axis a s ax = Ok b -> length (shape b) = length (shape a).
Proof.
  unfold slice_axis. rewrite bind_ok. intros (n & _ & H). apply bind_ok in H as (qs & _ & H). apply of_opt_ok in H. unfold take_pos, axlen in H.
  destruct (shape a !! ax); simpl in H; [|done]. case_decide; [|done]. unfold gather in H. apply build_Some in H as (-> & _). apply insert_length.
Qed.
Lemma movingsum_forward_commutes window skip norm : lane_commutes (fun y axis => larry_movingsum_forward y window skip axis norm).
Proof.
  intros ps a0 l l' y y' axis ax Hlp Hps Hax Hne. eapply lrel_bind; [done|]. unfold np_movingsum_forward.
  rewrite !(lp_index ps a0 l l' y y' axis ax Hlp Hax); [|by eapply lp_ndim'|done]. cbn [of_opt mbind res_bind].
  intros z Hz. apply bind_ok in Hz as (b & Hb & Hz).
  destruct (slice_axis_sim ps a0 _ (nd_arr (lx y')) flip_slice ax (proj2 (Hnp _ _ _ _ _ _ Hlp)) Hne b Hb) as (b' & -> & Hpb).
  cbn [mbind res_bind]. pose proof (slice_axis_ndim _ _ _ _ Hb) as Hnb.
  revert z Hz. eapply sim_bind.
  - unfold np_movingsum. case_decide; [apply sim_err|]. unfold nd_ndim, nd_shape. cbn [nd_arr nd_dtype].
    rewrite (picks_ndim _ _ _ _ Hpb), Hnb. apply sim_bind_same. intros ax' Hax'.
    assert (ax' = ax) as ->. { apply of_opt_ok in Hax'. pose proof (lp_index ps a0 l l' y y' axis ax Hlp Hax (lndim y) eq_refl) as E.
      change (py_index (lndim y) axis = Some ax') in Hax'. congruence. }
    unfold axlen. rewrite (picks_shape_ne _ _ _ _ _ Hpb Hne). apply sim_bind_same. intros n _. case_decide; [apply sim_err|]. case_decide; [apply sim_err|].
    apply (lanewise_sim ps a0 _ (Nda (nd_dtype (lx y)) b) (Nda (nd_dtype (lx y')) b')); [split; [apply Hlp|done]|done|].
    unfold nd_shape. cbn [nd_arr]. rewrite Hnb. by eapply lp_lt.
  - intros m m' Hm. cbn beta. eapply sim_bind; [apply slice_axis_sim; [apply Hm|done]|]. intros c c' Hc.
    rewrite (proj1 Hm). by apply npicks_ret.
Qed.
Lemma group_commutes f g : lane_commutes (fun y axis => larry_group f y (Some g) axis).
Proof.
  intros ps a0 l l' y y' axis ax Hlp Hps Hax Hne. unfold larry_group.
  assert (group_align y' (Some g) axis = group_align y (Some g) axis) as ->.
  { unfold group_align. case_decide; [done|]. rewrite (lp_axis y axis ax Hax).
    rewrite (lp_axis' ps a0 l l' y y' axis ax Hlp Hax). cbn [mbind res_bind]. by rewrite (lp_axis_label ps a0 l l' y y' ax Hlp Hne). }
  apply sim_bind_same. intros groups _. eapply lrel_bind; [done|]. unfold np_group. apply sim_bind_same. intros ug _.
  destruct ug as [|u ug]; [by apply npicks_ret, picks_full_like, Hlp|].
  rewrite !(lp_index ps a0 l l' y y' axis ax Hlp Hax); [|by eapply lp_ndim'|done]. cbn [of_opt mbind res_bind].
  apply lanewise_sim; [apply Hlp|done|by eapply lp_lt].
Qed.

Lemma test_mask_sim ps a0 p x x' : npicks ps a0 x x' -> sim (fun m m' => picks ps a0 m m' /\ shape m = nd_shape x) (test_mask p x) (test_mask p x').
Proof.
  intros [Hd Hp]. unfold test_mask. rewrite Hd. destruct (nd_dtype x); try apply sim_err; apply sim_ret; (split; [by apply picks_amap|done]).
Qed.
Lemma azip_none {A} (r : A) m (x : arr A) : arr_wf m -> arr_wf x -> shape m = shape x -> any_true m = false ->
  azip (fun (b : bool) u => if b then r else u) m x = x.
Proof.
  intros Hm Hx Hs Ha. destruct x as [sh d], m as [shm dm]. unfold azip. simpl in *. subst shm. f_equal. unfold any_true in Ha. simpl in Ha.
  assert (Hl : length dm = length d) by (etrans; [exact Hm|symmetry; exact Hx]). clear -Hl Ha. revert d Hl.
  induction dm as [|b dm IH]; intros [|v d] Hl; simpl in *; try done. apply orb_false_iff in Ha as [Hb Ha]. unfold id in Hb. subst b.
  f_equal. apply IH; [done|lia].
Qed.
Lemma any_true_picks ps a0 m m' : picks ps a0 m m' -> any_true m' = true -> any_true m = true.
Proof.
  intros Hp. unfold any_true. rewrite !existsb_exists. intros (b & Hin & Hb). exists b. split; [|done].
  apply elem_of_list_In. eapply picks_elems; [exact Hp|]. by apply elem_of_list_In.
Qed.
Lemma guarded_sim ps a0 x x' m m' v : npicks ps a0 x x' -> picks ps a0 m m' -> shape m = nd_shape x ->
  sim (npicks ps a0) (if any_true m then putmask_scalar x m v else Ok x) (if any_true m' then putmask_scalar x' m' v else Ok x').
Proof.
  intros Hx Hm Hs. destruct (any_true m) eqn:E.
  - destruct (any_true m') eqn:E'; [by apply putmask_scalar_sim|]. intros z Hz. destruct (putmask_scalar_sim ps a0 x x' m m' v Hx Hm Hs z Hz) as (z' & Hz' & Hp).
    exists x'. split; [done|]. unfold putmask_scalar in Hz'. apply bind_ok in Hz' as (r & _ & [= <-]).
    rewrite azip_none in Hp; [by destruct x'|apply Hm|apply Hx| |done]. rewrite (picks_shape _ _ _ _ Hm), (picks_shape _ _ _ _ (proj2 Hx)).
    by unfold nd_shape in Hs; rewrite Hs.
  - destruct (any_true m') eqn:E'; [by rewrite (any_true_picks _ _ _ _ Hm E') in E|]. by apply sim_ret.
Qed.
Lemma along_shape {A B} (f : list A -> list B) a ax b : along f a ax = Some b -> shape b = shape a.
Proof. unfold along. intros H. by apply build_Some in H as (-> & _). Qed.
Lemma cum_commutes op : lane_commutes (fun y axis => larry_cum op y (Some axis)).
Proof.
  intros ps a0 l l' y y' axis ax Hlp Hps Hax Hne. unfold larry_cum.
  eapply sim_bind; [apply test_mask_sim, Hlp|]. intros m m' [Hm Hsm].
  intros z Hz. apply bind_ok in Hz as (x1 & Hx1 & Hz).
  destruct (putmask_scalar_sim ps a0 _ _ _ _ _ (Hnp _ _ _ _ _ _ Hlp) Hm Hsm _ Hx1) as (x1' & -> & Hp1). cbn [mbind res_bind].
  assert (Hs1 : nd_shape x1 = nd_shape (lx y)).
  { unfold putmask_scalar in Hx1. apply bind_ok in Hx1 as (r & _ & [= <-]). done. }
  apply bind_ok in Hz as (x2 & Hx2 & Hz). unfold np_cum in *. unfold norm_axis, nd_ndim in *.
  assert (Hs1' : length (nd_shape x1') = length (nd_shape x1)) by (eapply picks_ndim; apply Hp1).
  pose proof (lp_index ps a0 l l' y y' axis ax Hlp Hax (length (nd_shape (lx y))) eq_refl) as Hi.
  rewrite Hs1', Hs1, Hi. rewrite Hs1, Hi in Hx2. cbn [of_opt mbind res_bind] in *.
  assert (Hb : npicks ps a0 (bool_to_int x1) (bool_to_int x1')).
  { unfold bool_to_int. rewrite (proj1 Hp1). destruct (nd_dtype x1) eqn:E; try done; split; try (simpl; congruence). simpl. apply picks_amap, Hp1. }
  assert (Hsb : nd_shape (bool_to_int x1) = nd_shape x1) by (unfold bool_to_int; by destruct (nd_dtype x1)).
  apply bind_ok in Hx2 as (b & Hbb & [= <-]). apply of_opt_ok in Hbb. pose proof (along_shape _ _ _ _ Hbb) as Hsh.
  destruct (picks_along ps a0 _ _ _ ax b (proj2 Hb) Hne Hbb) as (b' & -> & Hpb).
  { unfold nd_shape in *. rewrite Hsb, Hs1. by eapply lp_lt. }
  cbn [of_opt mbind res_bind]. revert z Hz. eapply lrel_bind; [done|]. apply guarded_sim; [split; [apply Hb|done]|done|].
  unfold nd_shape in *. simpl. by rewrite Hsh, Hsb, Hs1.
Qed.

(** * Rearranging another axis *)
Lemma np_take_sim {A} ps a0 (a a' : arr A) ids ax : picks ps a0 a a' -> ax <> a0 -> sim (picks ps a0) (np_take a ids ax) (np_take a' ids ax).
Proof.
  intros Hp Hne. unfold np_take, axlen. rewrite (picks_shape_ne _ _ _ _ _ Hp Hne). apply sim_bind_same. intros n _. apply sim_bind_same. intros qs _.
  apply sim_opt. intros b Hb. by eapply picks_take_pos.
Qed.
Lemma take_commutes ids : lane_commutes (fun y axis => larry_take y ids axis).
Proof.
  intros ps a0 l l' y y' axis ax Hlp Hps Hax Hne. unfold larry_take. rewrite (lp_axis y axis ax Hax), (lp_axis' ps a0 l l' y y' axis ax Hlp Hax).
  cbn [mbind res_bind]. rewrite (lp_axis_label ps a0 l l' y y' ax Hlp Hne). apply sim_bind_same. intros la _. apply sim_bind_same. intros m _.
  destruct (py_nodup m); [|apply sim_err]. eapply sim_bind; [apply np_take_sim; [apply Hlp|done]|]. intros b b' Hb.
  eapply lrel_relabel; [done|done|]. split; [apply Hlp|done].
Qed.
Lemma flip_commutes : lane_commutes (fun y axis => flipaxis y (Some axis)).
Proof.
  intros ps a0 l l' y y' axis ax Hlp Hps Hax Hne. unfold flipaxis. cbn [axes_of foldM].
  assert (sim (lrel ps a0 l l') (flip_one y axis) (flip_one y' axis)) as K.
  { unfold flip_one. rewrite (lp_axis y axis ax Hax), (lp_axis' ps a0 l l' y y' axis ax Hlp Hax).
    cbn [mbind res_bind]. rewrite (lp_axis_label ps a0 l l' y y' ax Hlp Hne). apply sim_bind_same. intros la _. apply sim_bind_same. intros m _.
    eapply sim_bind; [apply slice_axis_sim; [apply Hlp|done]|]. intros b b' Hb. eapply lrel_relabel; [done|done|]. split; [apply Hlp|done]. }
  eapply sim_bind; [exact K|]. intros z z' Hz. by apply sim_ret.
Qed.
Lemma lag_commutes n : lane_commutes (fun y axis => lag y n (Some axis)).
Proof.
  intros ps a0 l l' y y' axis ax Hlp Hps Hax Hne. unfold lag. cbn [of_opt mbind res_bind].
  rewrite (lp_axis y axis ax Hax), (lp_axis' ps a0 l l' y y' axis ax Hlp Hax). cbn [mbind res_bind]. rewrite (lp_axis_label ps a0 l l' y y' ax Hlp Hne).
  case_decide; [|case_decide].
  - apply sim_bind_same. intros la _. apply sim_bind_same. intros m _.
    eapply sim_bind; [apply slice_axis_sim; [apply Hlp|done]|]. intros b b' Hb. eapply lrel_relabel; [done|done|]. split; [apply Hlp|done].
  - apply sim_bind_same. intros la _. apply sim_bind_same. intros m _.
    eapply sim_bind; [apply slice_axis_sim; [apply Hlp|done]|]. intros b b' Hb. eapply lrel_relabel; [done|done|]. split; [apply Hlp|done].
  - rewrite !copy_eq. by apply lrel_same.
Qed.
Lemma put_axis_sim ps a0 x x' ids ax v : npicks ps a0 x x' -> ax <> a0 -> sim (npicks ps a0) (put_axis x ids ax v) (put_axis x' ids ax v).
Proof.
  intros [Hd Hp] Hne. unfold put_axis, axlen. rewrite (picks_shape_ne _ _ _ _ _ Hp Hne), Hd. apply sim_bind_same. intros n _.
  case_decide; [|apply sim_err]. apply sim_bind_same. intros w _. eapply sim_bind.
  - apply sim_opt. intros b Hb. eapply (picks_build ps a0 (nd_arr x) (nd_arr x')); [exact Hp|exact Hb|]. intros idx i Hr Hi Hri. cbn beta.
    rewrite (pick_at_other ps a0 ax idx i) by done. destruct (idx !! ax); simpl; [|done]. case_decide; [done|].
    destruct Hp as (_ & _ & _ & _ & Hg). by rewrite (Hg idx Hr), Hi.
  - intros b b' Hb. by apply npicks_ret.
Qed.
Lemma nans_sim ps a0 sh n dt : sh !! a0 = Some n -> Forall (fun p => p < n) ps -> sim (npicks ps a0) (nans sh dt) (nans (<[a0 := length ps]> sh) dt).
Proof. intros Hn Hps. unfold nans. destruct dt; try apply sim_err; apply npicks_ret; by eapply picks_full. Qed.
Lemma morph_commutes label : lane_commutes (fun y axis => morph y label axis).
Proof.
  intros ps a0 l l' y y' axis ax Hlp Hps Hax Hne. unfold morph. rewrite (lp_ndim' _ _ _ _ _ _ Hlp). case_decide; [apply sim_err|].
  rewrite (lp_axis y axis ax Hax), (lp_axis' ps a0 l l' y y' axis ax Hlp Hax). cbn [mbind res_bind]. rewrite (lp_axis_label ps a0 l l' y y' ax Hlp Hne).
  apply sim_bind_same. intros old _. case_decide; [rewrite !copy_eq; by apply lrel_same|].
  destruct (listmap_fill old label 0) as [idx miss]. pose proof (Hnp _ _ _ _ _ _ Hlp) as [Hd Hp]. unfold ldtype. rewrite Hd.
  eapply sim_bind.
  - case_decide.
    + cbn zeta. change (lshape y') with (shape (nd_arr (lx y'))). change (lshape y) with (shape (nd_arr (lx y))).
      pose proof Hp as (_ & _ & (n & Hn & Hlt) & Hs & _). rewrite Hs. rewrite list_insert_commute by done.
      eapply nans_sim; [by rewrite list_lookup_insert_ne|done].
    + eapply sim_bind.
      * unfold nda_take. eapply sim_bind; [by apply np_take_sim|]. intros b b' Hb. rewrite Hd. by apply npicks_ret.
      * intros x x' Hx. cbn beta. destruct miss as [|k miss]; [by apply sim_ret|]. rewrite (proj1 Hx).
        destruct (missing_marker (nd_dtype x)) as [mk|]; [by apply put_axis_sim|]. cbn [of_opt]. cbn zeta.
        apply sim_bind_same. intros mk _. apply put_axis_sim; [|done]. split; [done|]. simpl. apply picks_amap, Hx.
  - intros x x' Hx. cbn beta. destruct (py_nodup label); [|apply sim_err]. by eapply lrel_relabel.
Qed.
Lemma py_get_shape_eq {A} (l k : list A) axis ax : py_index (length l) axis = Some ax -> length k = length l -> l !! ax = k !! ax -> py_get l axis = py_get k axis.
Proof. intros H Hl E. unfold py_get. rewrite Hl, H. done. Qed.
Lemma sortaxis_commutes reverse : lane_commutes (fun y axis => sortaxis y (Some axis) reverse).
Proof.
  intros ps a0 l l' y y' axis ax Hlp Hps Hax Hne. unfold sortaxis. cbn [axes_of foldM].
  assert (sim (lrel ps a0 l l') (sortaxis_step reverse y y axis) (sortaxis_step reverse y' y' axis)) as K.
  { unfold sortaxis_step. rewrite (lp_axis y axis ax Hax), (lp_axis' ps a0 l l' y y' axis ax Hlp Hax). cbn [mbind res_bind].
    rewrite (lp_axis_label ps a0 l l' y y' ax Hlp Hne).
    rewrite (py_get_shape_eq (lshape y) (lshape y') axis ax); [|by eapply lp_index|by eapply lp_ndim'|symmetry; by eapply lp_shape].
    apply sim_bind_same. intros n _. case_decide; [|rewrite !copy_eq; by apply lrel_same]. apply sim_bind_same. intros la _.
    apply sim_bind_same. intros index _. by eapply morph_commutes. }
  eapply sim_bind; [exact K|]. intros z z' Hz. by apply sim_ret.
Qed.

Lemma lane_method_commutes f : lane_method f -> lane_commutes f.
Proof.
  intros H. destruct H.
  - apply cum_commutes.
  - apply push_commutes.
  - apply ranking_commutes.
  - apply quantile_commutes.
  - apply demean_commutes.
  - apply demedian_commutes.
  - apply zscore_commutes.
  - apply move_commutes.
  - apply movingsum_forward_commutes.
  - apply group_commutes.
  - apply group_commutes.
  - apply group_commutes.
  - apply lag_commutes.
  - apply take_commutes.
  - apply flip_commutes.
  - apply sortaxis_commutes.
  - apply morph_commutes.
Qed.
Lemma lane_valid f y axis z : lane_method f -> valid y -> f y axis = Ok z -> valid z.
Proof.
  intros H Hv Hz. destruct H.
  - by eapply cum_valid.
  - by eapply push_valid.
  - by eapply ranking_valid.
  - by eapply quantile_valid.
  - by eapply demean_valid.
  - by eapply demedian_valid.
  - by eapply zscore_valid.
  - by eapply move_valid.
  - by eapply movingsum_forward_valid.
  - by eapply group_valid.
  - by eapply group_valid.
  - by eapply group_valid.
  - by eapply lag_valid.
  - by eapply take_valid.
  - by eapply flipaxis_valid.
  - by eapply sortaxis_valid.
  - by eapply morph_valid.
Qed.
