(** Reductions along one axis commute with picking labels of another. *)
From Verif Require Export CommuteLanes.

Definition orel (ps : list nat) (a0 : nat) (l l' : list lab) (r r' : out) : Prop :=
  exists z z', r = OLar z /\ r' = OLar z' /\ lrel ps a0 l l' z z'.
Definition reduce_commutes (f : larry -> Z -> res out) : Prop := forall ps a0 l l' y y' axis ax,
  lpicks ps a0 l l' y y' -> ps <> [] -> axis_is y axis ax -> ax <> a0 -> sim (orel ps (axis_left ax a0) l l') (f y axis) (f y' axis).

Lemma orel_ret ps a0 ax l l' y y' x x' : lpicks ps a0 l l' y y' -> ax <> a0 -> ax < length (llabel y) -> npicks ps (axis_left ax a0) x x' ->
  orel ps (axis_left ax a0) l l' (OLar (Larry x (remove_at ax (llabel y)))) (OLar (Larry x' (remove_at ax (llabel y')))).
Proof.
  intros (_ & _ & _ & Hl & Hlab & _) Hne Hax Hp. eexists _, _. split; [done|]. split; [done|]. split_and!; [done|simpl; by rewrite remove_at_less|].
  simpl. rewrite Hlab. apply remove_at_insert_ne; [done|done|by eapply lookup_lt_Some].
Qed.
Lemma picks_two {A} ps a0 (a a' : arr A) ax : picks ps a0 a a' -> ax <> a0 -> ax < length (shape a) -> remove_at ax (shape a) <> [].
Proof.
  intros (_ & _ & (n & Hn & _) & _) Hne Hax E. apply lookup_lt_Some in Hn. apply (f_equal length) in E. rewrite remove_at_length in E by done. simpl in E. lia.
Qed.
Lemma as_out_sim ps a0 ax l l' y y' x x' : lpicks ps a0 l l' y y' -> ax <> a0 -> ax < length (llabel y) -> npicks ps (axis_left ax a0) x x' ->
  nd_shape x <> [] ->
  sim (orel ps (axis_left ax a0) l l') (as_out x (remove_at ax (llabel y))) (as_out x' (remove_at ax (llabel y'))).
Proof.
  intros Hlp Hne Hax Hp Hs. unfold as_out. pose proof (picks_ndim _ _ _ _ (proj2 Hp)) as Hl. unfold nd_shape in *.
  destruct (shape (nd_arr x)) as [|n sh] eqn:E; [done|]. destruct (shape (nd_arr x')) as [|n' sh'] eqn:E'; [done|].
  apply sim_ret. by apply orel_ret.
Qed.
Lemma empty_sim ps a0 ax l l' y y' dt v : lpicks ps a0 l l' y y' -> ax <> a0 -> ax < length (llabel y) ->
  let res := fun y : larry => match remove_at ax (lshape y) with [] => Ok (OVal v)
    | _ => w ← store dt v; Ok (OLar (Larry (Nda dt (full (remove_at ax (lshape y)) w)) (remove_at ax (llabel y)))) end in
  sim (orel ps (axis_left ax a0) l l') (res y) (res y').
Proof.
  intros Hlp Hne Hax res. unfold res. pose proof Hlp as (Hv & Hv' & (_ & Hp) & _). pose proof Hp as (_ & _ & (n & Hn & Hps) & Hs & _).
  assert (Hlt : ax < length (lshape y)) by (change (ax < lndim y); by rewrite <-(valid_ndim y)).
  assert (Hn1 : remove_at ax (lshape y) <> []) by (by eapply picks_two).
  assert (E : remove_at ax (lshape y') = <[axis_left ax a0 := length ps]> (remove_at ax (lshape y))).
  { change (lshape y') with (shape (nd_arr (lx y'))). rewrite Hs. apply remove_at_insert_ne; [done|done|by eapply lookup_lt_Some]. }
  assert (Hn2 : remove_at ax (lshape y') <> []).
  { rewrite E. intros E0. apply (f_equal length) in E0. rewrite insert_length in E0. by destruct (remove_at ax (lshape y)). }
  destruct (remove_at ax (lshape y)) as [|m sh] eqn:Er; [done|]. destruct (remove_at ax (lshape y')) as [|m' sh'] eqn:Er'; [done|].
  apply sim_bind_same. intros w _. apply sim_ret, orel_ret; [done..|]. split; [done|]. simpl. rewrite E. eapply picks_full; [|done].
  rewrite <-Er. rewrite remove_at_less; done.
Qed.
Lemma empty_sim_cons ps a0 ax l l' y y' dt v : lpicks ps a0 l l' y y' -> ax <> a0 -> ax < length (llabel y) ->
  let res := fun y : larry => match remove_at ax (lshape y) with [] => Ok (OVal v)
    | sh => w ← store dt v; Ok (OLar (Larry (Nda dt (full sh w)) (remove_at ax (llabel y)))) end in
  sim (orel ps (axis_left ax a0) l l') (res y) (res y').
Proof.
  intros Hlp Hne Hax res. pose proof (empty_sim ps a0 ax l l' y y' dt v Hlp Hne Hax) as H. cbn beta zeta in H. unfold res.
  by destruct (remove_at ax (lshape y)), (remove_at ax (lshape y')).
Qed.
Lemma reduce_sim {B} ps a0 (a a' : arr val) (f : list val -> B) ax e : picks ps a0 a a' -> ax <> a0 -> ax < length (shape a) ->
  sim (fun b b' => picks ps (axis_left ax a0) b b' /\ shape b = remove_at ax (shape a)) (of_opt e (reduce f a ax)) (of_opt e (reduce f a' ax)).
Proof.
  intros Hp Hne Hax. apply sim_opt. intros b Hb. destruct (picks_reduce _ _ _ _ _ _ _ Hp Hne Hb Hax) as (b' & Hb' & Hpb). exists b'. split; [done|].
  split; [done|]. apply reduce_Some in Hb; [apply Hb|apply Hp].
Qed.
Lemma lane_reduce_sim ps a0 ax l l' y y' (f : list val -> val) dt e : lpicks ps a0 l l' y y' -> ax <> a0 -> ax < length (llabel y) ->
  sim (orel ps (axis_left ax a0) l l') (b ← of_opt e (reduce f (larr y) ax); as_out (Nda dt b) (remove_at ax (llabel y)))
    (b ← of_opt e (reduce f (larr y') ax); as_out (Nda dt b) (remove_at ax (llabel y'))).
Proof.
  intros Hlp Hne Hax. pose proof Hlp as (Hv & _ & (_ & Hp) & _). assert (Hlt : ax < length (lshape y)) by (change (ax < lndim y); by rewrite <-(valid_ndim y)).
  eapply sim_bind; [by eapply reduce_sim|]. intros b b' [Hb Hs]. eapply as_out_sim; [done..|]. unfold nd_shape. simpl. rewrite Hs. by eapply picks_two.
Qed.
Lemma red_commutes op : reduce_commutes (fun y axis => larry_reduce op y (Some axis)).
Proof.
  intros ps a0 l l' y y' axis ax Hlp Hps Hax Hne. unfold larry_reduce.
  pose proof (lp_index ps a0 l l' y y' axis ax Hlp Hax (lndim y) eq_refl) as Hi. rewrite (lp_ndim' _ _ _ _ _ _ Hlp), Hi. cbn [of_opt mbind res_bind].
  assert (Hlt : ax < length (llabel y)) by apply Hax.
  pose proof (lp_size0 ps a0 l l' y y' Hlp Hps) as Hs0. change (lsize y' = 0 <-> lsize y = 0) in Hs0. unfold ldtype. rewrite (proj1 (Hnp _ _ _ _ _ _ Hlp)).
  destruct (decide (lsize y = 0)) as [H0|H0].
  - rewrite (decide_True (P := lsize y' = 0)) by tauto. cbn zeta.
    by apply (empty_sim ps a0 ax l l' y y' (match op with RAny | RAll => DBool | _ => nd_dtype (lx y) end) (red_default op)).
  - rewrite (decide_False (P := lsize y' = 0)) by tauto. apply sim_bind_same. intros dt _. by apply lane_reduce_sim.
Qed.
Lemma nums_commutes f e : reduce_commutes (fun y axis => reduce_nums f e y (Some axis)).
Proof.
  intros ps a0 l l' y y' axis ax Hlp Hps Hax Hne. unfold reduce_nums.
  pose proof (lp_index ps a0 l l' y y' axis ax Hlp Hax (lndim y) eq_refl) as Hi. rewrite (lp_ndim' _ _ _ _ _ _ Hlp), Hi. cbn [of_opt mbind res_bind].
  assert (Hlt : ax < length (llabel y)) by apply Hax.
  pose proof (lp_size0 ps a0 l l' y y' Hlp Hps) as Hs0. change (lsize y' = 0 <-> lsize y = 0) in Hs0. unfold ldtype. rewrite (proj1 (Hnp _ _ _ _ _ _ Hlp)).
  destruct (decide (lsize y = 0)) as [H0|H0].
  - rewrite (decide_True (P := lsize y' = 0)) by tauto. cbn zeta. by apply (empty_sim_cons ps a0 ax l l' y y' (nd_dtype (lx y)) (VFloat NaN)).
  - rewrite (decide_False (P := lsize y' = 0)) by tauto. rewrite (check_numeric_same _ _ _ _ (Hnp _ _ _ _ _ _ Hlp)). apply sim_bind_same. intros _ _. by apply lane_reduce_sim.
Qed.
Lemma lastrank_commutes : reduce_commutes larry_lastrank.
Proof.
  intros ps a0 l l' y y' axis ax Hlp Hps Hax Hne. unfold larry_lastrank.
  pose proof (lp_index ps a0 l l' y y' axis ax Hlp Hax (lndim y) eq_refl) as Hi. rewrite (lp_ndim' _ _ _ _ _ _ Hlp), Hi. cbn [of_opt mbind res_bind].
  assert (Hlt : ax < length (llabel y)) by apply Hax.
  pose proof (lp_size0 ps a0 l l' y y' Hlp Hps) as Hs0. change (lsize y' = 0 <-> lsize y = 0) in Hs0. unfold ldtype. rewrite (proj1 (Hnp _ _ _ _ _ _ Hlp)).
  destruct (decide (lsize y = 0)) as [H0|H0].
  - rewrite (decide_True (P := lsize y' = 0)) by tauto. cbn zeta. by apply (empty_sim_cons ps a0 ax l l' y y' (nd_dtype (lx y)) (VFloat NaN)).
  - rewrite (decide_False (P := lsize y' = 0)) by tauto. rewrite (check_numeric_same _ _ _ _ (Hnp _ _ _ _ _ _ Hlp)). apply sim_bind_same. intros _ _. by apply lane_reduce_sim.
Qed.
Lemma lastrank_decay_commutes exp decay : reduce_commutes (fun y axis => larry_lastrank_decay exp y axis decay).
Proof.
  intros ps a0 l l' y y' axis ax Hlp Hps Hax Hne. unfold larry_lastrank_decay.
  pose proof (lp_index ps a0 l l' y y' axis ax Hlp Hax (lndim y) eq_refl) as Hi. rewrite (lp_ndim' _ _ _ _ _ _ Hlp), Hi. cbn [of_opt mbind res_bind].
  pose proof (lp_size0 ps a0 l l' y y' Hlp Hps) as Hs0. change (lsize y' = 0 <-> lsize y = 0) in Hs0.
  destruct (decide (lsize y = 0)) as [H0|H0].
  - rewrite (decide_True (P := lsize y' = 0)) by tauto. by eapply nums_commutes.
  - rewrite (decide_False (P := lsize y' = 0)) by tauto. destruct (num_ltb _ decay); [by eapply nums_commutes|]. destruct (num_ltb decay _); [apply sim_err|]. by eapply lastrank_commutes.
Qed.
Lemma geometric_mean_commutes log exp check : reduce_commutes (fun y axis => larry_geometric_mean log exp y (Some axis) check).
Proof.
  intros ps a0 l l' y y' axis ax Hlp Hps Hax Hne. unfold larry_geometric_mean.
  pose proof (lp_size0 ps a0 l l' y y' Hlp Hps) as Hs0. change (lsize y' = 0 <-> lsize y = 0) in Hs0.
  destruct (decide (lsize y = 0)) as [H0|H0].
  - rewrite (decide_True (P := lsize y' = 0)) by tauto. by eapply nums_commutes.
  - rewrite (decide_False (P := lsize y' = 0)) by tauto. rewrite (check_numeric_same _ _ _ _ (Hnp _ _ _ _ _ _ Hlp)). apply sim_bind_same. intros _ _.
    destruct (check && existsb _ (omap to_num (data (larr y)))) eqn:E; [apply sim_err|].
    destruct (check && existsb _ (omap to_num (data (larr y')))) eqn:E'; [|by eapply nums_commutes]. exfalso.
    apply andb_true_iff in E' as [-> E']. simpl in E. apply existsb_exists in E' as (n & Hin & Hn).
    rewrite <-not_true_iff_false in E. apply E. apply existsb_exists. exists n. split; [|done]. apply elem_of_list_In in Hin. apply elem_of_list_In.
    apply elem_of_list_omap in Hin as (v & Hv & Hvn). apply elem_of_list_omap. exists v. split; [|done]. eapply picks_elems; [apply Hlp|done].
Qed.
Lemma std_commutes sqrt ddof : reduce_commutes (fun y axis => larry_std sqrt y (Some axis) ddof).
Proof.
  intros ps a0 l l' y y' axis ax Hlp Hps Hax Hne. unfold larry_std, larry_var.
  eapply sim_bind; [by eapply (red_commutes (RVar ddof))|]. intros r r' (z & z' & -> & -> & Hz). cbn zeta.
  pose proof (lp_size0 ps a0 l l' y y' Hlp Hps) as Hs0. change (lsize y' = 0 <-> lsize y = 0) in Hs0. apply sim_ret.
  destruct (decide (lsize y = 0)) as [H0|H0]; [rewrite (decide_True (P := lsize y' = 0)) by tauto; by exists z, z'|]. rewrite (decide_False (P := lsize y' = 0)) by tauto.
  eexists _, _. split; [done|]. split; [done|]. destruct Hz as (Hz1 & Hz2 & Hz3). split_and!; [|done|done]. split; [apply Hz1|]. simpl. apply picks_amap, Hz1.
Qed.
Lemma prod_commutes : reduce_commutes (fun y axis => larry_prod y (Some axis)).
Proof.
  intros ps a0 l l' y y' axis ax Hlp Hps Hax Hne. unfold larry_prod.
  eapply sim_bind; [apply test_mask_sim, Hlp|]. intros m m' [Hm Hsm]. intros z Hz. apply bind_ok in Hz as (x & Hx & Hz).
  destruct (putmask_scalar_sim ps a0 _ _ _ _ _ (Hnp _ _ _ _ _ _ Hlp) Hm Hsm _ Hx) as (x' & -> & Hpx). cbn [mbind res_bind].
  assert (Hvx : valid (Larry x (llabel y))).
  { destruct (putmask_scalar_nda (lx y) m (VInt 1) x) as (? & ? & ?); [apply Hlp|apply Hm|done|done|]. apply data_valid; [apply Hlp|done|done]. }
  pose proof (lift ps a0 l l' y y' x x' Hlp Hvx Hpx) as Hlx.
  apply bind_ok in Hz as (r & Hr & Hz).
  destruct (red_commutes RProd ps a0 l l' _ _ axis ax Hlx Hps Hax Hne r Hr) as (r' & Hr' & (w & w' & -> & -> & Hw)). rewrite Hr'. cbn [mbind res_bind].
  pose proof (lp_index ps a0 l l' y y' axis ax Hlp Hax (lndim y) eq_refl) as Hi. rewrite (lp_ndim' _ _ _ _ _ _ Hlp), Hi. rewrite Hi in Hz. cbn [of_opt mbind res_bind] in *.
  assert (Hlt : ax < length (shape m)) by (rewrite Hsm; by eapply lp_lt).
  apply bind_ok in Hz as (q & Hq & Hz). apply of_opt_ok in Hq.
  destruct (picks_reduce _ _ _ _ _ _ _ Hm Hne Hq Hlt) as (q' & -> & Hpq). cbn [of_opt mbind res_bind].
  apply reduce_Some in Hq as (Hsq & _ & _); [|apply Hm].
  assert (shape q <> []) as Hq0 by (rewrite Hsq; by eapply picks_two).
  assert (shape q' <> []) as Hq0'. { pose proof (picks_ndim _ _ _ _ Hpq) as E. destruct (shape q), (shape q'); done. }
  destruct (shape q) as [|q1 qs] eqn:Eq; [done|]. destruct (shape q') as [|q1' qs'] eqn:Eq'; [done|].
  revert z Hz. destruct Hw as (Hw1 & Hw2 & Hw3).
  assert (Hshw : shape q = nd_shape (lx w)).
  { assert (valid w) as Hvw by (by eapply (reduce_valid RProd (Larry x (llabel y)) (Some axis))).
    assert (El : llabel w = remove_at ax (llabel y)).
    { clear -Hr Hax Hvx. unfold larry_reduce in Hr. pose proof (valid_ndim _ Hvx) as Hn.
      assert (E : py_index (lndim (Larry x (llabel y))) axis = Some ax) by (apply py_index_Some; rewrite <-Hn; apply Hax).
      rewrite E in Hr. case_decide; cbn [of_opt mbind res_bind] in Hr.
      - destruct (remove_at ax _); [done|]. apply bind_ok in Hr as (v & _ & [= <-]). done.
      - apply bind_ok in Hr as (dt & _ & Hr). apply bind_ok in Hr as (b & _ & Hr). unfold as_out in Hr. destruct (nd_shape _); [by apply bind_ok in Hr as (? & _ & ?)|].
        by injection Hr as <-. }
    change (nd_shape (lx w)) with (lshape w). destruct Hvw as (_ & _ & <- & _). rewrite El, Eq, Hsq, Hsm. unfold remove_at.
    change (nd_shape (lx y)) with (lshape y). destruct Hlp as ((_ & _ & <- & _) & _). by rewrite list_fmap_delete. }
  eapply sim_bind; [apply putmask_scalar_sim; [exact Hw1|exact Hpq|exact Hshw]|]. intros u u' Hu. apply sim_ret.
  eexists _, _. split; [done|]. split; [done|]. by split.
Qed.
Lemma reduce_method_commutes f : reduce_method f -> reduce_commutes f.
Proof.
  intros H. destruct H.
  - apply red_commutes.
  - apply std_commutes.
  - apply prod_commutes.
  - apply geometric_mean_commutes.
  - apply lastrank_commutes.
  - apply lastrank_decay_commutes.
Qed.
Lemma reduce_method_valid f y axis z : reduce_method f -> valid y -> f y axis = Ok (OLar z) -> valid z.
Proof.
  intros H Hv Hz. destruct H.
  - by eapply reduce_valid.
  - by eapply std_valid.
  - by eapply prod_valid.
  - by eapply geometric_mean_valid.
  - by eapply lastrank_valid.
  - by eapply lastrank_decay_valid.
Qed.
