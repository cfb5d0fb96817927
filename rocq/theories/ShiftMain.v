(** Methods and changes of all numbers. *)
From Verif Require Export ShiftFacts.
From Verif Require Import SpecFacts NumFacts ReduceFacts PickFacts RelabelLarry ReorderMain.
From Verif Require Export Session.

(** * Lanes *)
Definition floats (l : list val) : Prop := Forall (fun v => has_dtype DFloat v = true) l.
Definition keeps_nan (h : num -> num) : Prop := forall n, h n = NaN <-> n = NaN.
Lemma omap_change h l : floats l -> omap to_num (change h <$> l) = h <$> omap to_num l.
Proof. induction 1 as [|v l Hv _ IH]; [done|]. destruct v; try done. csimpl. by f_equal. Qed.
Lemma filter_change h (l : list num) : keeps_nan h -> filter (fun n => n <> NaN) (h <$> l) = h <$> filter (fun n => n <> NaN) l.
Proof.
  intros Hh. unfold keeps_nan in Hh. induction l as [|n l IH]; [done|]. rewrite fmap_cons, !filter_cons, IH. destruct (decide (n <> NaN)) as [Hn|Hn].
  - rewrite decide_True by (by rewrite Hh). done.
  - rewrite decide_False by (by rewrite Hh). done.
Qed.
Lemma lane_nums_change h l : keeps_nan h -> floats l -> lane_nums (change h <$> l) = h <$> lane_nums l.
Proof. intros Hh Hl. unfold lane_nums. by rewrite omap_change, filter_change. Qed.
Lemma build_change {A B} (k : A -> B) sh (f : list nat -> option B) (g : list nat -> option A) :
  (forall idx, in_range sh idx -> f idx = k <$> g idx) -> build sh f = amap k <$> build sh g.
Proof.
  intros H. unfold build. rewrite (mapM_fmap_out k f g) by (intros idx Hi; apply H; by apply elem_of_indices). by destruct (mapM g _).
Qed.
Lemma reduce_change {A B C D} (P : A -> Prop) (h : A -> B) (k : C -> D) f g (a : arr A) ax : arr_wf a -> Forall P (data a) ->
  (forall l, Forall P l -> f (h <$> l) = k (g l)) -> reduce f (amap h a) ax = amap k <$> reduce g a ax.
Proof.
  intros Hwf HP Hf. unfold reduce. change (axlen (amap h a) ax) with (axlen a ax). destruct (axlen a ax); [|done]. simpl.
  apply build_change. intros idx _. rewrite lane_amap. destruct (lane a ax _) as [l|] eqn:E; [|done]. simpl. f_equal. apply Hf. by eapply lane_elems.
Qed.
Lemma along_change {A B C D} (P : A -> Prop) (h : A -> B) (k : C -> D) f g (a : arr A) ax : arr_wf a -> Forall P (data a) ->
  (forall l, Forall P l -> f (h <$> l) = k <$> g l) -> along f (amap h a) ax = amap k <$> along g a ax.
Proof.
  intros Hwf HP Hf. unfold along. apply (build_change k (shape a)). intros idx _. rewrite lane_amap. destruct (lane a ax _) as [l|] eqn:E; [|done]. simpl.
  destruct (idx !! ax) as [i|]; [|done]. simpl. change (map h l) with (h <$> l). rewrite Hf by (by eapply lane_elems). by rewrite list_lookup_fmap.
Qed.

(** * Larrys *)
Lemma float_data y : float_larry y -> arr_wf (larr y) /\ floats (data (larr y)).
Proof. intros [((Hw & Ht) & _) Hd]. split; [done|]. unfold floats. unfold ldtype in Hd. by rewrite <-Hd. Qed.
Lemma changed_id y : revalued id y = y.
Proof.
  destruct y as [[dt [sh d]] l]. unfold revalued, amap, larr, ldtype. simpl. do 3 f_equal. rewrite <-(list_fmap_id d) at 2. apply list_fmap_ext. by intros _ [] _.
Qed.
Lemma out_revalued_id r : out_revalued id r = r.
Proof. destruct r as [z|v]; simpl; [by rewrite changed_id|by destruct v]. Qed.
Lemma out_revalued_id_res (r : res out) : out_revalued id <$> r = r.
Proof. destruct r; [|done]. cbn. by rewrite out_revalued_id. Qed.
Lemma changed_id_res (r : res larry) : revalued id <$> r = r.
Proof. destruct r; [|done]. cbn. by rewrite changed_id. Qed.
Lemma as_out_change k dt b l : as_out (Nda dt (amap (change k) b)) l = out_revalued k <$> as_out (Nda dt b) l.
Proof.
  unfold as_out, nd_shape. simpl. destruct (shape b); [|done]. rewrite get_amap. by destruct (aget b []).
Qed.
Lemma full_change k sh : k NaN = NaN -> amap (change k) (full sh (VFloat NaN)) = full sh (VFloat NaN).
Proof. intros Hk. unfold amap, full. simpl. f_equal. rewrite fmap_replicate. simpl. by rewrite Hk. Qed.

(** Reductions that are [float_red] of the numbers that are not NaN. *)
Definition numeric_op (op : red_op) : Prop := match op with RSum | RMean | RMedian | RVar _ | RMax | RMin => True | _ => False end.
Lemma reduce_changed op op' h k y axis : float_larry y -> numeric_op op -> numeric_op op' -> keeps_nan h -> k NaN = NaN ->
  (forall l, Forall (fun n => n <> NaN) l -> float_red op (h <$> l) = k (float_red op' l)) ->
  larry_reduce op (revalued h y) axis = out_revalued k <$> larry_reduce op' y axis.
Proof.
  intros Hy Hop Hop' Hh Hk Hf. pose proof (float_data y Hy) as [Hwf Ht]. destruct Hy as [Hv Hd].
  assert (Hl : forall l, floats l -> red_lane op DFloat (change h <$> l) = change k (red_lane op' DFloat l)).
  { intros l Hl. assert (forall o l, numeric_op o -> red_lane o DFloat l = VFloat (float_red o (lane_nums l))) as E by (by intros []).
    rewrite !E by done. rewrite lane_nums_change by done. simpl. f_equal. apply Hf. apply present_nums. }
  assert (Hdef : forall o, numeric_op o -> red_default o = VFloat NaN) by (by intros []).
  assert (Hdt : forall o, numeric_op o -> red_dtype o DFloat = Ok DFloat) by (by intros []).
  unfold larry_reduce. assert (lsize (revalued h y) = lsize y) as -> by (unfold lsize, nd_size; done).
  change (lndim (revalued h y)) with (lndim y). change (lshape (revalued h y)) with (lshape y). change (llabel (revalued h y)) with (llabel y).
  change (ldtype (revalued h y)) with (ldtype y). change (larr (revalued h y)) with (amap (change h) (larr y)). rewrite Hd, !Hdef by done. case_decide.
  - destruct axis as [a|]; [|cbn; by rewrite Hk]. destruct (py_index (lndim y) a) as [ax|]; [|done]. cbn [of_opt mbind res_bind]. cbn zeta.
    destruct (remove_at ax (lshape y)); [cbn; by rewrite Hk|].
    destruct op; try done; destruct op'; try done; cbn [store mbind res_bind fmap res_fmap out_revalued]; unfold revalued, ldtype, larr; cbn [lx nd_dtype nd_arr llabel]; by rewrite full_change.
  - rewrite !Hdt by done. cbn [mbind res_bind]. destruct axis as [a|]; [|cbn [fmap res_fmap out_revalued]; by rewrite <-Hl by done].
    destruct (py_index (lndim y) a) as [ax|]; [|done]. cbn [of_opt mbind res_bind].
    rewrite (reduce_change (fun v => has_dtype DFloat v = true) (change h) (change k) _ (red_lane op' DFloat)) by done.
    destruct (reduce _ (larr y) ax) as [b|]; [|done]. cbn [fmap option_fmap option_map of_opt mbind res_bind]. apply as_out_change.
Qed.
Lemma lanewise_changed f g h k x axis : nda_wf x -> nd_dtype x = DFloat -> (forall ns, f (h <$> ns) = k <$> g ns) ->
  lanewise f (Nda DFloat (amap (change h) (nd_arr x))) axis = (fun x => Nda DFloat (amap (change k) (nd_arr x))) <$> lanewise g x axis.
Proof.
  intros [Hwf Ht] Hd Hf. rewrite Hd in Ht. assert (Hl : forall l, floats l -> on_nums f (change h <$> l) = change k <$> on_nums g l).
  { intros l Hl. unfold on_nums. rewrite omap_change by done. rewrite Hf, <-!list_fmap_compose. done. }
  unfold lanewise, check_numeric. rewrite Hd. cbn [nd_dtype mbind res_bind nd_arr]. destruct axis as [ax|].
  - rewrite (along_change (fun v => has_dtype DFloat v = true) (change h) (change k) _ (on_nums g)) by done. by destruct (along _ (nd_arr x) ax).
  - cbn. unfold amap. simpl. by rewrite Hl.
Qed.
Lemma on_axis_changed f g h k y axis : float_larry y -> (forall ns, f (h <$> ns) = k <$> g ns) ->
  (x ← on_axis f (lx (revalued h y)) axis; Ok (Larry x (llabel (revalued h y)))) = revalued k <$> (x ← on_axis g (lx y) axis; Ok (Larry x (llabel y))).
Proof.
  intros [Hv Hd] Hf. unfold on_axis. change (nd_ndim (lx (revalued h y))) with (nd_ndim (lx y)). change (llabel (revalued h y)) with (llabel y).
  assert (E : forall a, lanewise f (lx (revalued h y)) a = (fun x => Nda DFloat (amap (change k) (nd_arr x))) <$> lanewise g (lx y) a).
  { intros a. unfold revalued. rewrite Hd. by apply lanewise_changed; [apply Hv| |]. }
  assert (D : forall a x, lanewise g (lx y) a = Ok x -> nd_dtype x = DFloat).
  { intros a x H. unfold lanewise in H. apply bind_ok in H as (_ & _ & H). destruct a; [apply bind_ok in H as (? & _ & H)|]; by injection H as <-. }
  destruct axis as [a|]; [destruct (norm_axis _ a) as [ax|]; [|done]; cbn [of_opt mbind res_bind]|]; rewrite E; destruct (lanewise g _ _) as [x|] eqn:Ex; try done;
    cbn [fmap res_fmap mbind res_bind]; unfold revalued, ldtype, larr; cbn [lx]; by rewrite (D _ _ Ex).
Qed.
Lemma ranking_changed ndtri norm h y axis : float_larry y -> (forall norm ns, ranking_lane ndtri norm (h <$> ns) = ranking_lane ndtri norm ns) ->
  larry_ranking ndtri (revalued h y) axis norm = larry_ranking ndtri y axis norm.
Proof.
  intros [Hv Hd] Hf. unfold larry_ranking. change (llabel (revalued h y)) with (llabel y). f_equal. unfold np_ranking. change (nd_ndim (lx (revalued h y))) with (nd_ndim (lx y)).
  assert (E : forall n a, lanewise (ranking_lane ndtri n) (lx (revalued h y)) a = lanewise (ranking_lane ndtri n) (lx y) a).
  { intros n a. unfold revalued. rewrite Hd. cbn [lx]. unfold larr. rewrite (lanewise_changed _ (ranking_lane ndtri n) h id) by (done || apply Hv || (intros ns; by rewrite Hf, list_fmap_id)).
    destruct (lanewise _ (lx y) a) as [x|] eqn:Ex; [|done]. cbn [fmap res_fmap]. f_equal.
    assert (nd_dtype x = DFloat) as Hx by (unfold lanewise in Ex; apply bind_ok in Ex as (_ & _ & Ex); destruct a; [apply bind_ok in Ex as (? & _ & Ex)|]; by injection Ex as <-).
    destruct x as [dt [sh d]]. simpl in Hx. subst dt. unfold amap. simpl. do 2 f_equal. rewrite <-(list_fmap_id d) at 2. apply list_fmap_ext. by intros _ [] _. }
  unfold check_numeric. change (nd_dtype (lx (revalued h y))) with (ldtype y). change (nd_dtype (lx y)) with (ldtype y). rewrite Hd. destruct axis as [a|]; [case_decide; destruct (py_index _ a) as [ax|]|..]; destruct norm; cbn [of_opt mbind res_bind]; by rewrite ?E.
Qed.
Lemma reduce_nums_changed f h e y axis : float_larry y -> (forall ns, f (h <$> ns) = f ns) -> reduce_nums f e (revalued h y) axis = reduce_nums f e y axis.
Proof.
  intros Hy Hf. pose proof (float_data y Hy) as [Hwf Ht]. destruct Hy as [Hv Hd]. unfold reduce_nums. assert (lsize (revalued h y) = lsize y) as -> by (unfold lsize, nd_size; done).
  change (lndim (revalued h y)) with (lndim y). change (lshape (revalued h y)) with (lshape y). change (llabel (revalued h y)) with (llabel y).
  change (ldtype (revalued h y)) with (ldtype y). change (larr (revalued h y)) with (amap (change h) (larr y)). unfold check_numeric. change (nd_dtype (lx (revalued h y))) with (nd_dtype (lx y)).
  case_decide; [done|]. change (nd_dtype (lx y)) with (ldtype y). rewrite Hd. cbn [mbind res_bind]. destruct axis as [a|].
  - destruct (py_index (lndim y) a) as [ax|]; [|done]. cbn [of_opt mbind res_bind].
    rewrite (reduce_change (fun v => has_dtype DFloat v = true) (change h) id _ (fun l => VFloat (f (omap to_num l)))); [|done|done|].
    + destruct (reduce _ (larr y) ax) as [b|]; [|done]. cbn [fmap option_fmap option_map of_opt mbind res_bind]. do 2 f_equal. destruct b. unfold amap. simpl. f_equal. apply list_fmap_id.
    + intros l Hl. by rewrite omap_change, Hf.
  - simpl. change (map (change h) (data (larr y))) with (change h <$> data (larr y)). by rewrite omap_change, Hf.
Qed.
Lemma lastrank_changed h y axis : float_larry y -> (forall ns, lastrank_lane (h <$> ns) = lastrank_lane ns) -> larry_lastrank (revalued h y) axis = larry_lastrank y axis.
Proof.
  intros Hy Hf. pose proof (float_data y Hy) as [Hwf Ht]. destruct Hy as [Hv Hd]. unfold larry_lastrank. assert (lsize (revalued h y) = lsize y) as -> by (unfold lsize, nd_size; done).
  change (lndim (revalued h y)) with (lndim y). change (lshape (revalued h y)) with (lshape y). change (llabel (revalued h y)) with (llabel y).
  change (ldtype (revalued h y)) with (ldtype y). change (larr (revalued h y)) with (amap (change h) (larr y)). unfold check_numeric. change (nd_dtype (lx (revalued h y))) with (nd_dtype (lx y)).
  destruct (py_index (lndim y) axis) as [ax|]; [|done]. cbn [of_opt mbind res_bind].
  case_decide; [done|]. change (nd_dtype (lx y)) with (ldtype y). rewrite Hd. cbn [mbind res_bind].
  rewrite (reduce_change (fun v => has_dtype DFloat v = true) (change h) id _ last_val); [|done|done|].
  - destruct (reduce _ (larr y) ax) as [b|]; [|done]. cbn [fmap option_fmap option_map of_opt mbind res_bind]. do 2 f_equal. destruct b. unfold amap. simpl. f_equal. apply list_fmap_id.
  - intros l Hl. unfold last_val. by rewrite omap_change, Hf.
Qed.
Lemma std_changed sqrt h k k2 ddof y axis : float_larry y -> keeps_nan h -> k NaN = NaN -> k2 NaN = NaN ->
  (forall l, Forall (fun n => n <> NaN) l -> num_var ddof (h <$> l) = k2 (num_var ddof l)) -> (forall n, sqrt (k2 n) = k (sqrt n)) -> sqrt NaN = NaN ->
  larry_std sqrt (revalued h y) axis ddof = out_revalued k <$> larry_std sqrt y axis ddof.
Proof.
  intros Hy Hh Hk Hk2 Hf Hs Hsn. unfold larry_std, larry_var. rewrite (reduce_changed (RVar ddof) (RVar ddof) h k2) by (done || (intros l Hl; destruct l; [done|by apply Hf])).
  assert (lsize (revalued h y) = lsize y) as -> by (unfold lsize, nd_size; done).
  destruct (larry_reduce (RVar ddof) y axis) as [r|] eqn:Er; [|done]. cbn [fmap res_fmap mbind res_bind]. f_equal. destruct r as [z|v]; cbn [out_revalued].
  - case_decide as H0.
    + unfold larry_reduce in Er. rewrite decide_True in Er by done. destruct axis as [a|]; [|done].
      destruct (py_index _ a) as [ax|]; [|done]. cbn [of_opt mbind res_bind] in Er. cbn zeta in Er. destruct (remove_at ax _) eqn:E; [done|].
      destruct Hy as [_ Hd]. rewrite Hd in Er. cbn [red_default store mbind res_bind] in Er. injection Er as <-. cbn [val_to_float to_num]. unfold out_revalued, revalued, larr, ldtype. cbn [lx nd_dtype nd_arr llabel]. by rewrite !full_change.
    + cbn [out_revalued]. f_equal. unfold revalued. f_equal. unfold larr, ldtype. cbn [lx nd_dtype nd_arr]. f_equal. unfold amap. simpl. f_equal.
      rewrite !map_map. apply map_ext. intros [n| | | | |]; simpl; try done. by rewrite Hs.
  - case_decide as H0.
    + unfold larry_reduce in Er. rewrite decide_True in Er by done. destruct axis as [a|]; [|injection Er as <-; simpl; by rewrite Hk, Hk2].
      destruct (py_index _ a) as [ax|]; [|done]. cbn [of_opt mbind res_bind] in Er. cbn zeta in Er. destruct (remove_at ax _) eqn:E; [injection Er as <-; simpl; by rewrite Hk, Hk2|].
      by apply bind_ok in Er as (? & _ & ?).
    + f_equal. destruct v; simpl; try done. by rewrite Hs.
Qed.

(** * Groups and moving windows *)
Lemma get_mask_fmap {A B} (h : A -> B) idx x : get_mask idx (h <$> x) = h <$> get_mask idx x.
Proof. revert x. induction idx as [|b idx IH]; intros [|a x]; try done; destruct b; cbn [fmap list_fmap get_mask]; rewrite ?IH; done. Qed.
Lemma put_mask_fmap {A B} (k : A -> B) idx r x : put_mask idx (k <$> r) (k <$> x) = k <$> put_mask idx r x.
Proof.
  revert r x. induction idx as [|b idx IH]; intros r [|a x]; try done; destruct b; try done; cbn [fmap list_fmap put_mask].
  - destruct r as [|c r]; cbn [fmap list_fmap]; f_equal; [apply (IH [])|apply IH].
  - f_equal. apply IH.
Qed.
Lemma group_lane_changed f g h k gs us ns : (forall ms, f (h <$> ms) = k <$> g ms) -> k NaN = NaN -> group_lane f gs us (h <$> ns) = k <$> group_lane g gs us ns.
Proof.
  intros Hf Hk. unfold group_lane. rewrite fmap_length. replace (replicate (length ns) NaN) with (k <$> replicate (length ns) NaN) at 1 by (rewrite fmap_replicate; by rewrite Hk).
  generalize (replicate (length ns) NaN). induction us as [|u us IH]; intros x; [done|]. cbn [fold_left]. rewrite get_mask_fmap, Hf, put_mask_fmap. apply IH.
Qed.
Lemma group_changed f g h k y gr axis : float_larry y -> (forall ms, f (h <$> ms) = k <$> g ms) -> k NaN = NaN ->
  larry_group f (revalued h y) gr axis = revalued k <$> larry_group g y gr axis.
Proof.
  intros [Hv Hd] Hf Hk. unfold larry_group. assert (group_align (revalued h y) gr axis = group_align y gr axis) as -> by done.
  destruct (group_align y gr axis) as [groups|]; [|done]. cbn [mbind res_bind]. unfold np_group. destruct (unique_group groups) as [us|]; [|done]. cbn [mbind res_bind].
  destruct us as [|u us].
  - cbn. unfold revalued, larr, ldtype. cbn [lx nd_dtype nd_arr llabel]. change (nd_shape (Nda _ _)) with (nd_shape (lx y)). by rewrite full_change.
  - change (nd_ndim (lx (revalued h y))) with (nd_ndim (lx y)). destruct (py_index _ axis) as [ax|]; [|done]. cbn [of_opt mbind res_bind].
    assert (lx (revalued h y) = Nda DFloat (amap (change h) (nd_arr (lx y)))) as -> by (unfold revalued; by rewrite Hd). rewrite (lanewise_changed _ (group_lane g groups (u :: us)) h k) by (done || apply Hv || (intros ns; by apply group_lane_changed)).
    destruct (lanewise _ (lx y) _) as [x|] eqn:Ex; [|done]. cbn [fmap res_fmap mbind res_bind]. unfold revalued, ldtype, larr. cbn [lx llabel].
    assert (nd_dtype x = DFloat) as Hx by (unfold lanewise in Ex; apply bind_ok in Ex as (_ & _ & Ex); apply bind_ok in Ex as (? & _ & Ex); by injection Ex as <-). by rewrite Hx.
Qed.
Lemma move_lane_changed op op' h k w ns : (forall i, stat_at op w (h <$> ns) i = k (stat_at op' w ns i)) -> k NaN = NaN -> move_lane op w (h <$> ns) = k <$> move_lane op' w ns.
Proof.
  intros Hf Hk. unfold move_lane. rewrite fmap_length, <-list_fmap_compose. apply list_fmap_ext. intros _ i _. simpl. case_decide; [by rewrite Hk|apply Hf].
Qed.
Lemma move_changed op op' h k y w axis : float_larry y -> (forall w ns i, stat_at op w (h <$> ns) i = k (stat_at op' w ns i)) -> k NaN = NaN ->
  larry_move op (revalued h y) w axis = revalued k <$> larry_move op' y w axis.
Proof.
  intros [Hv Hd] Hf Hk. unfold larry_move, bn_move. destruct axis as [a|]; [|done]. change (nd_ndim (lx (revalued h y))) with (nd_ndim (lx y)).
  destruct (py_index _ a) as [ax|]; [|done]. cbn [of_opt mbind res_bind]. change (axlen (nd_arr (lx (revalued h y))) ax) with (axlen (nd_arr (lx y)) ax).
  destruct (axlen _ ax) as [n|]; [|done]. cbn [of_opt mbind res_bind]. unfold check_numeric. change (nd_dtype (lx (revalued h y))) with (ldtype y). change (nd_dtype (lx y)) with (ldtype y). rewrite Hd.
  cbn [mbind res_bind]. case_decide; [done|].
  assert (lx (revalued h y) = Nda DFloat (amap (change h) (nd_arr (lx y)))) as -> by (unfold revalued; by rewrite Hd). rewrite (lanewise_changed _ (move_lane op' (Z.to_nat w)) h k) by (done || apply Hv || (intros ns; by apply move_lane_changed)).
  destruct (lanewise _ (lx y) _) as [x|] eqn:Ex; [|done]. cbn [fmap res_fmap mbind res_bind]. unfold revalued, ldtype, larr. cbn [lx llabel].
  assert (nd_dtype x = DFloat) as Hx by (unfold lanewise in Ex; apply bind_ok in Ex as (_ & _ & Ex); apply bind_ok in Ex as (? & _ & Ex); by injection Ex as <-). by rewrite Hx.
Qed.
