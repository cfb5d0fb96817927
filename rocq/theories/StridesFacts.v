(** move_func: the loop and the strides method. *)
From Verif Require Export MoveFacts.

(** The result of a moving window function on an array. *)
Definition windowed (f : list val -> num) (a : arr val) (w ax : nat) (b : arr num) : Prop :=
  shape b = shape a /\ arr_wf b /\
  forall idx k vs, in_range (shape a) idx -> idx !! ax = Some k -> lane a ax idx = Some vs ->
    aget b idx = Some (if decide (k + 1 < w) then NaN else f (window_at w 0 k vs)).
Lemma windowed_unique f a w ax b1 b2 :
  arr_wf a -> ax < ndim a -> windowed f a w ax b1 -> windowed f a w ax b2 -> b1 = b2.
Proof.
  intros Hwf Hax (Hs1 & Hw1 & H1) (Hs2 & Hw2 & H2). apply arr_ext; [done..|congruence|].
  rewrite Hs1. intros idx Hr. pose proof (in_range_length _ _ Hr) as Hl.
  assert (is_Some (idx !! ax)) as [k Hk] by (apply lookup_lt_is_Some; rewrite Hl; exact Hax).
  assert (is_Some (shape a !! ax)) as Hn by (by apply lookup_lt_is_Some).
  destruct (lane_is_Some' a ax idx Hwf Hn Hr) as [vs Hvs]. by rewrite (H1 idx k vs), (H2 idx k vs).
Qed.

(** ** Loop *)
Lemma slice_positions_between i j n : i <= j -> j <= n ->
  slice_positions (Slice (Some (Z.of_nat i)) (Some (Z.of_nat j)) None) n = Ok (seq i (j - i)).
Proof.
  intros Hij Hjn. unfold slice_positions. simpl. f_equal. unfold slice_clamp.
  destruct (Z.ltb_spec (Z.of_nat i) 0); [lia|]. destruct (Z.ltb_spec (Z.of_nat j) 0); [lia|].
  destruct (Z.ltb_spec (Z.of_nat i) 0); [lia|]. destruct (Z.ltb_spec (Z.of_nat n) (Z.of_nat i)); [lia|].
  destruct (Z.ltb_spec (Z.of_nat j) 0); [lia|]. destruct (Z.ltb_spec (Z.of_nat n) (Z.of_nat j)); [lia|].
  replace (Z.to_nat _) with (j - i).
  2:{ destruct (Z.ltb_spec (Z.of_nat i) (Z.of_nat j)); [rewrite Z.div_1_r; lia|lia]. }
  apply list_eq. intros k. rewrite list_lookup_fmap. destruct (decide (k < j - i)).
  - rewrite !lookup_seq_lt by done. simpl. f_equal. lia.
  - rewrite !lookup_seq_ge by lia. done.
Qed.
Lemma window_lane (a : arr val) ax idx vs n w i :
  shape a !! ax = Some n -> lane a ax idx = Some vs -> 1 <= w -> w <= i + 1 -> i < n ->
  mapM (fun k => aget a (<[ax := i + 1 - w + k]> idx)) (seq 0 w) = Some (window_at w 0 i vs).
Proof.
  intros Hn Hvs Hw Hwi Hi. apply lane_Some in Hvs as (n' & Hn' & Hl & Hg). assert (n' = n) as -> by congruence.
  apply mapM_Some_lookup. unfold window_at. rewrite take_length, drop_length, seq_length. split; [lia|].
  intros k x [-> Hk]%lookup_seq. simpl. rewrite Hg by lia. rewrite lookup_take by lia. rewrite lookup_drop. f_equal. lia.
Qed.
Lemma loop_step_spec f a w ax n y i :
  arr_wf a -> shape a !! ax = Some n -> 1 <= w -> w <= i + 1 -> i < n -> shape y = shape a -> arr_wf y ->
  exists y', loop_step f a w ax y i = Ok y' /\ shape y' = shape a /\ arr_wf y' /\
  forall idx k vs, in_range (shape a) idx -> idx !! ax = Some k -> lane a ax idx = Some vs ->
    aget y' idx = if decide (k = i) then Some (f (window_at w 0 i vs)) else aget y idx.
Proof.
  intros Hwf Hn Hw Hwi Hi Hsy Hwy. unfold loop_step, slice_axis, axlen. rewrite Hn. cbn [of_opt mbind res_bind].
  rewrite slice_positions_between by lia. cbn [of_opt mbind res_bind]. replace (i + 1 - (i + 1 - w)) with w by lia.
  destruct (proj2 (take_pos_is_Some a (seq (i + 1 - w) w) ax Hwf)) as [sub Hsub].
  { exists n. split; [done|]. apply Forall_forall. intros x Hx. apply elem_of_seq in Hx. lia. }
  rewrite Hsub. cbn [of_opt mbind res_bind]. apply take_pos_Some in Hsub as (n' & Hn' & _ & Hss & Hsw & Hsg). clear n' Hn'.
  rewrite seq_length in Hss. pose proof (lookup_lt_Some _ _ _ Hn) as Hax.
  assert (Hsax : shape sub !! ax = Some w) by (rewrite Hss; by apply list_lookup_insert).
  destruct (reduce_is_Some f sub ax Hsw) as [r Hr]; [by rewrite Hsax|]. rewrite Hr. cbn [of_opt mbind res_bind].
  apply reduce_Some in Hr as (Hrs & Hrw & Hrg); [|done].
  rewrite Hss, remove_at_insert in Hrs, Hrg.
  assert (Hval : forall idx vs, in_range (shape a) idx -> lane a ax idx = Some vs -> aget r (remove_at ax idx) = Some (f (window_at w 0 i vs))).
  { intros idx vs Hri Hvs. rewrite Hrg by (by eapply in_range_remove_at).
    pose proof (in_range_length _ _ Hri) as Hil.
    assert (is_Some (idx !! ax)) as [k Hk] by (apply lookup_lt_is_Some; lia).
    assert (E : insert_at ax 0 (remove_at ax idx) = <[ax := 0]> idx).
    { rewrite <-(insert_remove_at ax k idx Hk) at 2. rewrite insert_insert_at; [done|]. rewrite remove_at_length by lia. lia. }
    rewrite E, lane_insert. assert (lane sub ax idx = Some (window_at w 0 i vs)) as ->; [|done].
    unfold lane, axlen. rewrite Hsax. cbn [mbind option_bind]. rewrite <-(window_lane a ax idx vs n w i) by done.
    apply Forall_mapM_ext, Forall_forall. intros j Hj. apply elem_of_seq in Hj.
    rewrite (Hsg _ j (i + 1 - w + j)); [by rewrite list_insert_insert| | |].
    - rewrite Hss. apply in_range_insert; [done|lia].
    - apply list_lookup_insert. lia.
    - apply lookup_seq_lt. lia. }
  destruct (build (shape y) (fun idx => k ← idx !! ax; if decide (k = i) then aget r (remove_at ax idx) else aget y idx)) as [y'|] eqn:Ey.
  - exists y'. apply build_Some in Ey as (Hs' & Hw' & Hg'). split_and!; [done|congruence|done|].
    intros idx k vs Hri Hk Hvs. rewrite Hg' by (by rewrite Hsy). rewrite Hk. cbn [mbind option_bind].
    destruct (decide (k = i)); [by apply Hval|done].
  - exfalso. apply eq_None_not_Some in Ey. apply Ey. apply build_is_Some. rewrite Hsy. intros idx Hri.
    pose proof (in_range_length _ _ Hri) as Hil.
    assert (is_Some (idx !! ax)) as [k Hk] by (apply lookup_lt_is_Some; lia). rewrite Hk. cbn [mbind option_bind].
    destruct (decide _).
    + destruct (lane_is_Some' a ax idx Hwf) as [vs Hvs]; [eauto|done|]. rewrite (Hval idx vs) by done. eauto.
    + apply get_is_Some; [done|]. by rewrite Hsy.
Qed.
Lemma loop_spec f a w ax n :
  arr_wf a -> shape a !! ax = Some n -> 1 <= w -> w <= n ->
  exists b, move_func_loop f a w ax n = Ok b /\ windowed f a w ax b.
Proof.
  intros Hwf Hn Hw Hwn. unfold move_func_loop.
  set (Q := fun (m : nat) (b : arr num) => shape b = shape a /\ arr_wf b /\
    forall idx k vs, in_range (shape a) idx -> idx !! ax = Some k -> lane a ax idx = Some vs ->
      aget b idx = Some (if decide (k + 1 < w \/ m <= k) then NaN else f (window_at w 0 k vs))).
  assert (H : forall d m b, Q m b -> w - 1 <= m -> m + d = n -> exists b', foldM (loop_step f a w ax) b (seq m d) = Ok b' /\ Q n b').
  { induction d as [|d IH]; intros m b HQ Hm Hd.
    - exists b. assert (m = n) as -> by lia. done.
    - destruct HQ as (Hs & Hwb & Hg). destruct (loop_step_spec f a w ax n b m) as (b1 & Hb1 & Hs1 & Hw1 & Hg1); try done; [lia..|].
      simpl. rewrite Hb1. apply (IH (S m)); [|lia..]. split_and!; [done..|]. intros idx k vs Hr Hk Hvs.
      rewrite (Hg1 idx k vs) by done. destruct (decide (k = m)) as [->|Hkm].
      + by rewrite decide_False by lia.
      + rewrite (Hg idx k vs) by done. f_equal. destruct (decide (k + 1 < w \/ m <= k)), (decide (k + 1 < w \/ S m <= k)); try done; lia. }
  destruct (H (n - (w - 1)) (w - 1) (full (shape a) NaN)) as (b & Hb & Hs & Hwb & Hg); [|lia..|].
  { split_and!; [done|apply full_wf|]. intros idx k vs Hr Hk Hvs. rewrite get_full, decide_True by done.
    f_equal. by rewrite decide_True by lia. }
  exists b. split; [done|]. split_and!; [done..|]. intros idx k vs Hr Hk Hvs. rewrite (Hg idx k vs) by done. f_equal.
  pose proof (in_range_lookup _ _ _ _ _ Hr Hn Hk).
  destruct (decide (k + 1 < w \/ n <= k)), (decide (k + 1 < w)); try done; lia.
Qed.

(** ** Strides *)

Lemma dot_ravel sh idx : in_range sh idx -> dot idx (c_strides sh) = Z.of_nat (ravel sh idx).
Proof.
  intros H. induction H as [|i n idx sh Hi H IH]; [done|]. simpl. rewrite IH. lia.
Qed.
Lemma c_strides_length sh : length (c_strides sh) = length sh.
Proof. induction sh; simpl; congruence. Qed.
Lemma view_of_holds {A} (a : arr A) : holds (view_of a) a.
Proof.
  split_and!; [done|apply c_strides_length|]. intros idx Hr. unfold view_get, view_of. simpl. rewrite decide_True by done.
  rewrite dot_ravel by done. rewrite ?Z.add_0_l. rewrite decide_True by lia. rewrite Nat2Z.id. unfold aget. by rewrite decide_True.
Qed.

Lemma view_get_ext {A} (v v' : view A) idx idx' :
  in_range (v_shape v) idx -> in_range (v_shape v') idx' -> v_offset v = v_offset v' -> v_buf v = v_buf v' ->
  dot idx (v_strides v) = dot idx' (v_strides v') -> view_get v idx = view_get v' idx'.
Proof. intros H H' Ho Hb Hd. unfold view_get. rewrite (decide_True (P := in_range (v_shape v) idx)) by done.
  rewrite (decide_True (P := in_range (v_shape v') idx')) by done. by rewrite Ho, Hb, Hd. Qed.

Lemma windows0 (f : list val -> num) (v : view val) (a : arr val) w n0 rest s0 st :
  holds v a -> arr_wf a -> shape a = n0 :: rest -> v_strides v = s0 :: st -> 1 <= w -> w <= n0 ->
  exists y, view_reduce f (as_strided v (n0 - w + 1 :: w :: rest) (s0 :: s0 :: st)) 1 = Some y /\
  shape y = n0 - w + 1 :: rest /\ arr_wf y /\
  forall i r, i < n0 - w + 1 -> in_range rest r -> aget y (i :: r) = f <$> mapM (fun k => aget a (i + k :: r)) (seq 0 w).
Proof.
  intros (Hvs & Hvl & Hvg) Hwf Hs Hst Hw Hwn. unfold view_reduce, as_strided. cbn [v_shape lookup list_lookup mbind option_bind].
  change (remove_at 1 (n0 - w + 1 :: w :: rest)) with (n0 - w + 1 :: rest).
  set (z := View _ _ _ _).
  assert (Hget : forall i r k, i < n0 - w + 1 -> in_range rest r -> k < w -> view_get z (i :: k :: r) = aget a (i + k :: r)).
  { intros i r k Hi Hr Hk. rewrite <-Hvg by (rewrite Hs; constructor; [lia|done]). apply view_get_ext.
    - constructor; [done|]. by constructor.
    - rewrite Hvs, Hs. constructor; [lia|done].
    - done.
    - done.
    - subst z. cbn [v_strides]. rewrite Hst. cbn [dot]. lia. }
  destruct (build (n0 - w + 1 :: rest) (fun idx => f <$> mapM (fun k => view_get z (insert_at 1 k idx)) (seq 0 w))) as [y|] eqn:Ey.
  - exists y. apply build_Some in Ey as (Hys & Hyw & Hyg). split_and!; [done..|]. intros i r Hi Hr.
    rewrite Hyg by (by constructor). f_equal. apply Forall_mapM_ext, Forall_forall. intros k Hk. apply elem_of_seq in Hk.
    apply Hget; [done..|lia].
  - exfalso. apply eq_None_not_Some in Ey. apply Ey. apply build_is_Some. intros idx Hr. apply in_range_cons in Hr as (i & r & -> & Hi & Hr).
    apply fmap_is_Some, mapM_is_Some, Forall_forall. intros k Hk. apply elem_of_seq in Hk.
    assert (E : view_get z (insert_at 1 k (i :: r)) = aget a (i + k :: r)) by (apply Hget; [done|done|lia]).
    change (is_Some (view_get z (insert_at 1 k (i :: r)))). rewrite E. apply get_is_Some; [done|].
    rewrite Hs. constructor; [lia|done].
Qed.

Lemma in_range_1 n idx : in_range [n] idx <-> exists i, idx = [i] /\ i < n.
Proof.
  rewrite in_range_cons. split.
  - intros (i & r & -> & Hi & Hr). apply in_range_nil in Hr as ->. eauto.
  - intros (i & -> & Hi). exists i, []. split_and!; [done..|constructor].
Qed.
Lemma in_range_2 n m idx : in_range [n; m] idx <-> exists i j, idx = [i; j] /\ i < n /\ j < m.
Proof.
  rewrite in_range_cons. split.
  - intros (i & r & -> & Hi & Hr). apply in_range_1 in Hr as (j & -> & Hj). eauto.
  - intros (i & j & -> & Hi & Hj). exists i, [j]. split_and!; [done..|]. apply in_range_1. eauto.
Qed.
Lemma in_range_3 n m p idx : in_range [n; m; p] idx <-> exists i j k, idx = [i; j; k] /\ i < n /\ j < m /\ k < p.
Proof.
  rewrite in_range_cons. split.
  - intros (i & r & -> & Hi & Hr). apply in_range_2 in Hr as (j & k & -> & Hj & Hk). eauto 8.
  - intros (i & j & k & -> & Hi & Hj & Hk). exists i, [j; k]. split_and!; [done..|]. apply in_range_2. eauto.
Qed.
(** The windows have the right shape and contents. *)
Definition right_windows (f : list val -> num) (a : arr val) (w ax n : nat) (y : arr num) : Prop :=
  shape y = <[ax := n - (w - 1)]> (shape a) /\ arr_wf y /\
  forall idx i, in_range (<[ax := n - (w - 1)]> (shape a)) idx -> idx !! ax = Some i ->
    aget y idx = f <$> mapM (fun k => aget a (<[ax := i + k]> idx)) (seq 0 w).

Lemma strides_windows_spec f v a w ax n :
  holds v a -> arr_wf a -> ndim a <= 3 -> shape a !! ax = Some n -> 1 <= w -> w <= n ->
  exists y, strides_windows f v w ax = Ok y /\ right_windows f a w ax n y.
Proof.
  intros Hh Hwf Hnd Hn Hw Hwn. assert (Hsub : forall m, w <= m -> m - w + 1 = m - (w - 1)) by lia.
  destruct a as [sh d]. destruct v as [vsh vst off buf].
  assert (Hvs : vsh = sh) by apply Hh. assert (Hvl : length vst = length sh) by apply Hh. subst vsh.
  unfold ndim in Hnd. cbn [shape] in *. unfold strides_windows. cbn [v_shape].
  destruct sh as [|n0 [|n1 [|n2 [|]]]]; [done| | | |simpl in Hnd; lia].
  - destruct vst as [|s0 [|]]; try done. cbn [v_strides]. assert (ax = 0) as -> by (apply lookup_lt_Some in Hn; simpl in Hn; lia).
    injection Hn as ->.
    destruct (windows0 f _ _ w n [] s0 [] Hh Hwf eq_refl eq_refl Hw Hwn) as (y & Hy & Hys & Hyw & Hyg).
    rewrite Hy. exists y. split; [done|]. split_and!; [rewrite Hys; cbn; by rewrite Hsub|done|].
    intros idx i Hr Hi. cbn in Hr. apply in_range_1 in Hr as (i' & -> & Hi'). injection Hi as ->.
    rewrite Hyg; [done|lia|constructor].
  - destruct vst as [|s0 [|s1 [|]]]; try done. destruct (decide (ax = 1)) as [->|Hax].
    + injection Hn as ->. set (v' := view_T _). change (v_shape v') with [n; n0]. change (v_strides v') with [s1; s0]. cbv iota.
      destruct (build [n; n0] (fun idx => aget (Arr [n0; n] d) (reverse idx))) as [a'|] eqn:Ea.
      2:{ exfalso. apply eq_None_not_Some in Ea. apply Ea. apply build_is_Some. intros idx Hr. apply in_range_2 in Hr as (i & j & -> & Hi & Hj).
          apply get_is_Some; [done|]. apply in_range_2. exists j, i. done. }
      apply build_Some in Ea as (Has & Haw & Hag).
      assert (Hh' : holds v' a').
      { split_and!; [done|by rewrite Has|]. rewrite Has. intros idx Hr. rewrite Hag by done. apply in_range_2 in Hr as (i & j & -> & Hi & Hj).
        change (reverse [i; j]) with [j; i]. rewrite <-(proj2 (proj2 Hh)) by (apply in_range_2; exists j, i; done).
        apply view_get_ext; [apply in_range_2; exists i, j; done|apply in_range_2; exists j, i; done|done|done|]. cbn. lia. }
      destruct (windows0 f _ _ w n [n0] s1 [s0] Hh' Haw Has eq_refl Hw Hwn) as (y & Hy & Hys & Hyw & Hyg).
      rewrite Hy. cbn [of_opt mbind res_bind]. unfold transpose. rewrite Hys. change (reverse [n - w + 1; n0]) with [n0; n - w + 1].
      destruct (gather y [n0; n - w + 1] (fun idx => Some (reverse idx))) as [y'|] eqn:Ey.
      2:{ exfalso. apply eq_None_not_Some in Ey. apply Ey. apply gather_is_Some. intros idx Hr. apply in_range_2 in Hr as (i & j & -> & Hi & Hj).
          apply get_is_Some; [done|]. rewrite Hys. apply in_range_2. exists j, i. done. }
      apply gather_Some in Ey as (Hs' & Hw' & Hg'). exists y'. split; [done|].
      split_and!; [rewrite Hs'; cbn; by rewrite Hsub|done|]. cbn. intros idx i Hr Hi. apply in_range_2 in Hr as (i0 & j & -> & Hi0 & Hj).
      injection Hi as ->. rewrite Hg' by (apply in_range_2; exists i0, i; split_and!; [done..|lia]). cbn [mbind option_bind].
      change (reverse [i0; i]) with [i; i0]. rewrite Hyg; [|lia|apply in_range_1; by exists i0]. f_equal.
      apply Forall_mapM_ext, Forall_forall. intros k Hk. apply elem_of_seq in Hk. rewrite Hag; [done|].
      apply in_range_2. exists (i + k), i0. split_and!; [done|lia|done].
    + assert (ax = 0) as -> by (apply lookup_lt_Some in Hn; simpl in Hn; lia). injection Hn as ->. cbn [v_shape v_strides].
      destruct (windows0 f _ _ w n [n1] s0 [s1] Hh Hwf eq_refl eq_refl Hw Hwn) as (y & Hy & Hys & Hyw & Hyg).
      rewrite Hy. exists y. split; [done|]. split_and!; [rewrite Hys; cbn; by rewrite Hsub|done|].
      intros idx i Hr Hi. cbn in Hr. apply in_range_cons in Hr as (i' & r & -> & Hi' & Hr). injection Hi as ->.
      rewrite Hyg; [done|lia|done].
  - destruct vst as [|s0 [|s1 [|s2 [|]]]]; try done. destruct (decide (0 < ax)) as [Hax|Hax].
    2:{ assert (ax = 0) as -> by lia. injection Hn as ->. cbn [of_opt mbind res_bind v_shape v_strides].
      destruct (windows0 f _ _ w n [n1; n2] s0 [s1; s2] Hh Hwf eq_refl eq_refl Hw Hwn) as (y & Hy & Hys & Hyw & Hyg).
      rewrite Hy. exists y. split; [done|]. split_and!; [rewrite Hys; cbn; by rewrite Hsub|done|].
      intros idx i Hr Hi. cbn in Hr. apply in_range_cons in Hr as (i' & r & -> & Hi' & Hr). injection Hi as ->.
      rewrite Hyg; [done|lia|done]. }
    assert (ax = 1 \/ ax = 2) as [->| ->] by (apply lookup_lt_Some in Hn; simpl in Hn; lia).
    + injection Hn as ->. set (v' := View [n; n0; n2] [s1; s0; s2] off buf). change (view_swapaxes _ 0 1) with (Some v').
      cbn [of_opt mbind res_bind]. change (v_shape v') with [n; n0; n2]. change (v_strides v') with [s1; s0; s2]. cbv iota.
      destruct (build [n; n0; n2] (fun idx => swap_at 0 1 idx ≫= aget (Arr [n0; n; n2] d))) as [a'|] eqn:Ea.
      2:{ exfalso. apply eq_None_not_Some in Ea. apply Ea. apply build_is_Some. intros idx Hr. apply in_range_3 in Hr as (i & j & k & -> & Hi & Hj & Hk).
          apply get_is_Some; [done|]. apply in_range_3. exists j, i, k. done. }
      apply build_Some in Ea as (Has & Haw & Hag).
      assert (Hh' : holds v' a').
      { split_and!; [done|by rewrite Has|]. rewrite Has. intros idx Hr. rewrite Hag by done. apply in_range_3 in Hr as (i & j & k & -> & Hi & Hj & Hk).
        change (swap_at 0 1 [i; j; k]) with (Some [j; i; k]). cbn [mbind option_bind].
        rewrite <-(proj2 (proj2 Hh)) by (apply in_range_3; exists j, i, k; done).
        apply view_get_ext; [apply in_range_3; exists i, j, k; done|apply in_range_3; exists j, i, k; done|done|done|]. cbn. lia. }
      destruct (windows0 f _ _ w n [n0; n2] s1 [s0; s2] Hh' Haw Has eq_refl Hw Hwn) as (y & Hy & Hys & Hyw & Hyg).
      rewrite Hy. cbn [of_opt mbind res_bind]. unfold np_swapaxes. rewrite Hys.
      change (swap_at 0 1 [n - w + 1; n0; n2]) with (Some [n0; n - w + 1; n2]). cbn [mbind option_bind].
      destruct (gather y [n0; n - w + 1; n2] (swap_at 0 1)) as [y'|] eqn:Ey.
      2:{ exfalso. apply eq_None_not_Some in Ey. apply Ey. apply gather_is_Some. intros idx Hr. apply in_range_3 in Hr as (i & j & k & -> & Hi & Hj & Hk).
          apply get_is_Some; [done|]. rewrite Hys. apply in_range_3. exists j, i, k. done. }
      apply gather_Some in Ey as (Hs' & Hw' & Hg'). exists y'. split; [done|].
      split_and!; [rewrite Hs'; cbn; by rewrite Hsub|done|]. cbn. intros idx i Hr Hi. apply in_range_3 in Hr as (i0 & j & k & -> & Hi0 & Hj & Hk).
      injection Hi as ->. rewrite Hg' by (apply in_range_3; exists i0, i, k; split_and!; [done..|lia|done]).
      change (swap_at 0 1 [i0; i; k]) with (Some [i; i0; k]). cbn [mbind option_bind].
      rewrite Hyg; [|lia|apply in_range_2; by exists i0, k]. f_equal.
      apply Forall_mapM_ext, Forall_forall. intros q Hq. apply elem_of_seq in Hq. rewrite Hag; [done|].
      apply in_range_3. exists (i + q), i0, k. split_and!; [done|lia|done|done].
    + injection Hn as ->. set (v' := View [n; n1; n0] [s2; s1; s0] off buf). change (view_swapaxes _ 0 2) with (Some v').
      cbn [of_opt mbind res_bind]. change (v_shape v') with [n; n1; n0]. change (v_strides v') with [s2; s1; s0]. cbv iota.
      destruct (build [n; n1; n0] (fun idx => swap_at 0 2 idx ≫= aget (Arr [n0; n1; n] d))) as [a'|] eqn:Ea.
      2:{ exfalso. apply eq_None_not_Some in Ea. apply Ea. apply build_is_Some. intros idx Hr. apply in_range_3 in Hr as (i & j & k & -> & Hi & Hj & Hk).
          apply get_is_Some; [done|]. apply in_range_3. exists k, j, i. done. }
      apply build_Some in Ea as (Has & Haw & Hag).
      assert (Hh' : holds v' a').
      { split_and!; [done|by rewrite Has|]. rewrite Has. intros idx Hr. rewrite Hag by done. apply in_range_3 in Hr as (i & j & k & -> & Hi & Hj & Hk).
        change (swap_at 0 2 [i; j; k]) with (Some [k; j; i]). cbn [mbind option_bind].
        rewrite <-(proj2 (proj2 Hh)) by (apply in_range_3; exists k, j, i; done).
        apply view_get_ext; [apply in_range_3; exists i, j, k; done|apply in_range_3; exists k, j, i; done|done|done|]. cbn. lia. }
      destruct (windows0 f _ _ w n [n1; n0] s2 [s1; s0] Hh' Haw Has eq_refl Hw Hwn) as (y & Hy & Hys & Hyw & Hyg).
      rewrite Hy. cbn [of_opt mbind res_bind]. unfold np_swapaxes. rewrite Hys.
      change (swap_at 0 2 [n - w + 1; n1; n0]) with (Some [n0; n1; n - w + 1]). cbn [mbind option_bind].
      destruct (gather y [n0; n1; n - w + 1] (swap_at 0 2)) as [y'|] eqn:Ey.
      2:{ exfalso. apply eq_None_not_Some in Ey. apply Ey. apply gather_is_Some. intros idx Hr. apply in_range_3 in Hr as (i & j & k & -> & Hi & Hj & Hk).
          apply get_is_Some; [done|]. rewrite Hys. apply in_range_3. exists k, j, i. done. }
      apply gather_Some in Ey as (Hs' & Hw' & Hg'). exists y'. split; [done|].
      split_and!; [rewrite Hs'; cbn; by rewrite Hsub|done|]. cbn. intros idx i Hr Hi. apply in_range_3 in Hr as (i0 & j & k & -> & Hi0 & Hj & Hk).
      injection Hi as ->. rewrite Hg' by (apply in_range_3; exists i0, j, i; split_and!; [done..|lia]).
      change (swap_at 0 2 [i0; j; i]) with (Some [i; j; i0]). cbn [mbind option_bind].
      rewrite Hyg; [|lia|apply in_range_2; by exists j, i0]. f_equal.
      apply Forall_mapM_ext, Forall_forall. intros q Hq. apply elem_of_seq in Hq. rewrite Hag; [done|].
      apply in_range_3. exists (i + q), j, i0. split_and!; [done|lia|done|done].
Qed.

Lemma strides_spec f v a w ax n :
  holds v a -> arr_wf a -> ndim a <= 3 -> shape a !! ax = Some n -> 1 <= w -> w <= n ->
  exists b, move_func_strides f v w ax n = Ok b /\ windowed f a w ax b.
Proof.
  intros Hh Hwf Hnd Hn Hw Hwn. unfold move_func_strides.
  destruct (strides_windows_spec f v a w ax n) as (y & -> & Hys & Hyw & Hyg); try done. cbn [of_opt mbind res_bind].
  assert (Hvs : v_shape v = shape a) by apply Hh. rewrite Hvs. rewrite decide_True by done.
  pose proof (lookup_lt_Some _ _ _ Hn) as Hax.
  assert (Hval : forall idx k vs, in_range (shape a) idx -> idx !! ax = Some k -> lane a ax idx = Some vs -> w - 1 <= k ->
    aget y (<[ax := k - (w - 1)]> idx) = Some (f (window_at w 0 k vs))).
  { intros idx k vs Hr Hk Hvs' Hkw. pose proof (in_range_length _ _ Hr) as Hil. pose proof (in_range_lookup _ _ _ _ _ Hr Hn Hk) as Hkn.
    rewrite (Hyg _ (k - (w - 1))); [|apply in_range_insert; [done|lia]|apply list_lookup_insert; lia].
    erewrite (Forall_mapM_ext _ (fun j => aget a (<[ax := k + 1 - w + j]> idx))); [by rewrite (window_lane a ax idx vs n w k) by (done || lia)|].
    apply Forall_forall. intros j _. rewrite list_insert_insert. do 2 f_equal. lia. }
  destruct (build (shape a) _) as [b|] eqn:Eb.
  - exists b. split; [done|]. apply build_Some in Eb as (Hbs & Hbw & Hbg). split_and!; [done..|]. intros idx k vs Hr Hk Hvs'.
    rewrite Hbg by done. rewrite Hk. cbn [mbind option_bind]. destruct (decide (k < w - 1)).
    + by rewrite decide_True by lia.
    + rewrite decide_False by lia. apply Hval; try done. lia.
  - exfalso. apply eq_None_not_Some in Eb. apply Eb. apply build_is_Some. intros idx Hr.
    pose proof (in_range_length _ _ Hr) as Hil. assert (is_Some (idx !! ax)) as [k Hk] by (apply lookup_lt_is_Some; lia).
    rewrite Hk. cbn [mbind option_bind]. destruct (decide _); [eauto|].
    destruct (lane_is_Some' a ax idx Hwf) as [vs Hvs']; [eauto|done|]. rewrite (Hval idx k vs); [eauto|done..|lia].
Qed.

(** ** The larry methods *)
Lemma windowed_lanes f y w a ax b :
  valid y -> axis_is y a ax -> windowed f (larr y) w ax b ->
  lanes_to (moved f w) y a (Larry (Nda DFloat (amap VFloat b)) (llabel y)).
Proof.
  intros Hv Hax (Hbs & Hbw & Hbg). set (z := Larry _ _).
  assert (Hvz : valid z).
  { destruct Hv as ((_ & _) & Hne & Hs & Hnd). split_and!; [|done| |done].
    - split; [by apply amap_wf|]. cbn. apply Forall_fmap, Forall_true. done.
    - cbn. rewrite Hs. symmetry. exact Hbs. }
  split_and!; [done..|]. exists ax. split; [done|]. intros ls Hg.
  assert (Hlt : ax < length (llabel y)) by apply Hax.
  destruct (lookup_lt_is_Some_2 _ _ Hlt) as [l Hl].
  assert (Hlsl : ax <= length ls).
  { apply Forall2_length in Hg. rewrite Hg. rewrite delete_take_drop, app_length, take_length, drop_length. lia. }
  assert (exists vs, lane_of y ax ls vs) as [vs Hvs].
  { assert (is_Some (mapM (fun x => cell y (with_label ax x ls)) l)) as [vs Hvs].
    - apply mapM_is_Some, Forall_forall. intros x Hx. apply valid_cell_grid; [done|]. by eapply with_label_grid.
    - exists vs, l. split; [done|]. by apply mapM_Some. }
  set (ms := (fun k => if decide (k + 1 < w) then NaN else f (window_at w 0 k vs)) <$> seq 0 (length vs)).
  exists vs, ms. split_and!; [done| |].
  - exists l. split; [done|]. pose proof (lane_of_length _ _ _ _ _ Hvs Hl) as Hvl.
    apply Forall2_same_length_lookup. unfold ms. rewrite !fmap_length, seq_length. split; [done|].
    intros k x v Hk Hkv. rewrite list_lookup_fmap, list_lookup_fmap in Hkv.
    pose proof (lookup_lt_Some _ _ _ Hk) as Hkl. rewrite lookup_seq_lt in Hkv by lia. injection Hkv as <-. simpl (0 + k).
    assert (Hgr : in_grid (llabel y) (with_label ax x ls)) by (eapply with_label_grid; [done| |done]; by eapply elem_of_list_lookup_2).
    destruct (proj2 (valid_cell_grid y _ Hv) Hgr) as [u Hu].
    apply cell_Some in Hu as (idx & Hidx & Hget); [|by apply valid_nodup].
    assert (Hidxk : idx !! ax = Some k).
    { destruct (proj1 (labels_at_alt _ _ _) Hidx) as (Hil & _ & Ha).
      destruct (lookup_lt_is_Some_2 idx ax) as [k' Hk']; [by rewrite Hil|].
      rewrite Hk'. f_equal. eapply NoDup_lookup; [by eapply nodup_label|eapply (Ha ax); [done..|by apply with_label_lookup]|done]. }
    rewrite (cell_at z idx); [|by apply valid_nodup|done].
    change (larr z) with (amap VFloat b). rewrite get_amap.
    pose proof (get_in_range _ _ _ Hget) as Hr.
    destruct (lane_is_Some' (larr y) ax idx) as [us Hus]; [by apply valid_wf| |done|].
    { exists (length l). exact (valid_axis_len y ax l Hv Hl). }
    rewrite (Hbg idx k us) by done. cbn [fmap option_fmap option_map].
    assert (us = vs) as ->; [|done].
    pose proof (lane_at_labels y ax idx _ us Hv Hidx Hus) as Hlane. rewrite delete_with_label in Hlane by done.
    by eapply lane_of_unique.
  - unfold moved, ms. rewrite fmap_length, seq_length. split; [done|]. intros k Hk. rewrite list_lookup_fmap, lookup_seq_lt by done. done.
Qed.


Lemma np_move_func_spec layout func kw y w a ax l method :
  good_layout layout -> valid y -> axis_is y a ax -> llabel y !! ax = Some l -> (1 <= w <= Z.of_nat (length l))%Z ->
  method = MLoop \/ method = MStrides /\ length (llabel y) <= 3 ->
  exists x, np_move_func layout func (larr y) w (Some a) method kw = Ok x /\
    lanes_to (moved (func kw) (Z.to_nat w)) y a (Larry x (llabel y)).
Proof.
  intros Hlay Hv Hax Hl Hw Hm. unfold np_move_func.
  change (ndim (larr y)) with (lndim y). rewrite (proj1 (axis_is_py y a ax Hv) Hax). rewrite decide_False by lia.
  cbn [of_opt mbind res_bind]. rewrite (valid_axis_len y ax l) by done. cbn [of_opt mbind res_bind]. rewrite decide_False by lia.
  pose proof (valid_axis_len y ax l Hv Hl) as Hn. pose proof (valid_wf y Hv) as Hwf.
  destruct Hm as [->|[-> Hnd]].
  - destruct (loop_spec (func kw) (larr y) (Z.to_nat w) ax (length l)) as (b & -> & Hb); [done|exact Hn|lia..|].
    cbn [mbind res_bind]. eexists. split; [done|]. by apply windowed_lanes with ax.
  - destruct (strides_spec (func kw) (layout (larr y)) (larr y) (Z.to_nat w) ax (length l)) as (b & -> & Hb); [done|done| |exact Hn|lia..|].
    { rewrite (valid_ndim y Hv) in Hnd. exact Hnd. }
    cbn [mbind res_bind]. eexists. split; [done|]. by apply windowed_lanes with ax.
Qed.
Theorem move_func_total layout func kw y w a ax l method :
  good_layout layout -> valid y -> axis_is y a ax -> llabel y !! ax = Some l -> (1 <= w <= Z.of_nat (length l))%Z ->
  method = MLoop \/ method = MStrides /\ length (llabel y) <= 3 ->
  exists z, larry_move_func layout func y w (Some a) method kw = Ok z /\ lanes_to (moved (func []) (Z.to_nat w)) y a z.
Proof.
  intros. unfold larry_move_func. destruct (np_move_func_spec layout func [] y w a ax l method) as (x & -> & Hx); try done.
  eexists. split; [done|done].
Qed.
Lemma np_move_func_agree layout func kw y w axis :
  good_layout layout -> valid y -> length (llabel y) <= 3 ->
  np_move_func layout func (larr y) w axis MStrides kw = np_move_func layout func (larr y) w axis MLoop kw.
Proof.
  intros Hlay Hv Hnd. unfold np_move_func. destruct axis as [a|]; [|done]. destruct (decide _) as [|Hw]; [done|].
  destruct (py_index (ndim (larr y)) a) as [ax|] eqn:E; [|done]. cbn [of_opt mbind res_bind].
  destruct (axlen (larr y) ax) as [n|] eqn:En; [|done]. cbn [of_opt mbind res_bind]. destruct (decide _) as [|Hwn]; [done|].
  pose proof (valid_wf y Hv) as Hwf.
  destruct (loop_spec (func kw) (larr y) (Z.to_nat w) ax n) as (b & -> & Hb); [done|exact En|lia..|].
  destruct (strides_spec (func kw) (layout (larr y)) (larr y) (Z.to_nat w) ax n) as (b' & -> & Hb'); [done|done| |exact En|lia..|].
  { rewrite (valid_ndim y Hv) in Hnd. exact Hnd. }
  rewrite (windowed_unique (func kw) (larr y) (Z.to_nat w) ax b b'); try done. by eapply lookup_lt_Some.
Qed.
Theorem move_func_agree layout func kw y w axis :
  good_layout layout -> valid y -> length (llabel y) <= 3 ->
  larry_move_func layout func y w axis MStrides kw = larry_move_func layout func y w axis MLoop kw.
Proof. intros. unfold larry_move_func. by rewrite np_move_func_agree. Qed.
Lemma np_move_func_error layout func kw y w method :
  good_layout layout -> valid y ->
  np_move_func layout func (larr y) w None method kw = Err ValueError /\
  (forall axis, np_move_func layout func (larr y) w axis MBad kw = Err ValueError) /\
  (forall axis, (w < 1)%Z -> np_move_func layout func (larr y) w axis method kw = Err ValueError) /\
  (forall a ax l, axis_is y a ax -> llabel y !! ax = Some l -> (Z.of_nat (length l) < w)%Z ->
     np_move_func layout func (larr y) w (Some a) method kw = Err ValueError) /\
  (forall a ax l, axis_is y a ax -> llabel y !! ax = Some l -> 3 < length (llabel y) ->
     np_move_func layout func (larr y) w (Some a) MStrides kw = Err ValueError) /\
  (forall a, (forall ax, ~ axis_is y a ax) -> (1 <= w)%Z -> method <> MBad ->
     np_move_func layout func (larr y) w (Some a) method kw = Err IndexError).
Proof.
  intros Hlay Hv. unfold np_move_func. split_and!.
  - by destruct method.
  - done.
  - intros axis Hw. destruct method; [| |done]; destruct axis; try done; by rewrite decide_True.
  - intros a ax l Hax Hl Hw. change (ndim (larr y)) with (lndim y). rewrite (proj1 (axis_is_py y a ax Hv) Hax).
    cbn [of_opt mbind res_bind]. rewrite (valid_axis_len y ax l) by done. cbn [of_opt mbind res_bind].
    destruct method; [| |done]; destruct (decide (w < 1)%Z); try done; by rewrite decide_True.
  - intros a ax l Hax Hl Hnd. change (ndim (larr y)) with (lndim y). rewrite (proj1 (axis_is_py y a ax Hv) Hax).
    cbn [of_opt mbind res_bind]. rewrite (valid_axis_len y ax l) by done. cbn [of_opt mbind res_bind].
    destruct (decide (w < 1)%Z); [done|]. destruct (decide _); [done|]. unfold move_func_strides, strides_windows.
    assert (Hs : v_shape (layout (larr y)) = lshape y) by apply (Hlay (larr y)). rewrite Hs.
    rewrite (valid_ndim y Hv) in Hnd. unfold lndim in Hnd. destruct (lshape y) as [|? [|? [|? [|]]]]; simpl in Hnd; try lia. done.
  - intros a Hax Hw Hm. rewrite decide_False by lia. change (ndim (larr y)) with (lndim y).
    destruct (py_index (lndim y) a) as [ax|] eqn:E; [destruct (Hax ax); by apply axis_is_py|]. by destruct method.
Qed.
Theorem move_func_error layout func kw y w method :
  good_layout layout -> valid y ->
  larry_move_func layout func y w None method kw = Err ValueError /\
  (forall axis, larry_move_func layout func y w axis MBad kw = Err ValueError) /\
  (forall axis, (w < 1)%Z -> larry_move_func layout func y w axis method kw = Err ValueError) /\
  (forall a ax l, axis_is y a ax -> llabel y !! ax = Some l -> (Z.of_nat (length l) < w)%Z ->
     larry_move_func layout func y w (Some a) method kw = Err ValueError) /\
  (forall a ax l, axis_is y a ax -> llabel y !! ax = Some l -> 3 < length (llabel y) ->
     larry_move_func layout func y w (Some a) MStrides kw = Err ValueError) /\
  (forall a, (forall ax, ~ axis_is y a ax) -> (1 <= w)%Z -> method <> MBad ->
     larry_move_func layout func y w (Some a) method kw = Err IndexError).
Proof.
  intros Hlay Hv. destruct (np_move_func_error layout func [] y w method Hlay Hv) as (H1 & H2 & H3 & H4 & H5 & H6).
  unfold larry_move_func. split_and!; [by rewrite H1|intros; by rewrite H2|intros; by rewrite H3| | |].
  - intros a ax l Hax Hl Hw. by rewrite (H4 a ax l).
  - intros a ax l Hax Hl Hw. by rewrite (H5 a ax l).
  - intros a Hax Hw Hm. by rewrite (H6 a).
Qed.

(** ** move_median and move_ranking *)
Lemma window_numbers w k vs ns : numbers vs ns -> numbers (window_at w 0 k vs) (window_at w 0 k ns).
Proof. intros H. unfold window_at. by apply Forall2_take, Forall2_drop. Qed.
Lemma lanes_to_related f (P : list num -> num -> Prop) y w a z :
  valid y -> numeric_larry y -> 1 <= w ->
  (forall vs ns, numbers vs ns -> ns <> [] -> P ns (f vs)) ->
  lanes_to (moved f w) y a z -> lanes_related (moved_by P w) y (Some a) z.
Proof.
  intros Hv Hn Hw HP (Hvz & Hd & Hl & ax & Hax & H). split_and!; [done..|]. exists ax. split; [done|].
  intros ls Hg. destruct (H ls Hg) as (vs & ms & Hvs & Hms & Hlen & Hmv).
  assert (Hty : Forall (fun v => has_dtype (ldtype y) v = true) vs) by (by eapply lane_of_typed).
  pose proof (omap_num_length y vs Hn Hty) as Hns. exists vs, (omap to_num vs), ms. split_and!; [done..|].
  pose proof (numbers_length _ _ Hns) as Hln. split; [congruence|]. intros k Hk. rewrite Hln in Hk.
  rewrite (Hmv k Hk). eexists. split; [done|]. destruct (decide _) as [|Hkw]; [done|].
  apply HP; [by apply window_numbers|]. intros E. apply (f_equal length) in E. unfold window_at in E.
  rewrite take_length, drop_length in E. simpl in E. lia.
Qed.
Lemma numbers_omap_eq vs ns : numbers vs ns -> omap to_num vs = ns.
Proof.
  intros H. eapply numbers_fun; [|exact H]. apply numbers_omap. induction H; constructor; eauto.
Qed.
Lemma nanmedian_spec kw vs ns : numbers vs ns -> median_or_nan ns (nanmedian_lane kw vs).
Proof.
  intros H. unfold nanmedian_lane, median_or_nan, lane_nums.
  assert (omap to_num vs = ns) as ->.
  { by apply numbers_omap_eq. }
  fold (present ns). destruct (decide (present ns = [])) as [->|Hp]; [done|].
  apply (float_red_spec RMedian); try done. apply present_no_nan.
Qed.
Lemma lastrank_func_spec kw vs ns : numbers vs ns -> ns <> [] -> last_ranked ns (lastrank_func kw vs).
Proof.
  intros H Hne. unfold lastrank_func. assert (omap to_num vs = ns) as ->.
  { by apply numbers_omap_eq. }
  by apply lastrank_lane_spec.
Qed.
Theorem move_median_total layout y w a ax l method :
  good_layout layout -> valid y -> numeric_larry y -> axis_is y a ax -> llabel y !! ax = Some l -> (1 <= w <= Z.of_nat (length l))%Z ->
  method = MLoop \/ method = MStrides /\ length (llabel y) <= 3 ->
  exists z, larry_move_median layout y w (Some a) method = Ok z /\
    lanes_related (moved_by median_or_nan (Z.to_nat w)) y (Some a) z.
Proof.
  intros Hlay Hv Hn Hax Hl Hw Hm. unfold larry_move_median. rewrite check_numeric_ok by done. cbn [mbind res_bind].
  destruct (np_move_func_spec layout nanmedian_lane [] y w a ax l method) as (x & -> & Hx); try done.
  eexists. split; [done|]. eapply lanes_to_related; [done|done|lia| |exact Hx]. intros vs ns Hns _. by apply nanmedian_spec.
Qed.
Theorem move_ranking_total layout y w a ax l method :
  good_layout layout -> valid y -> numeric_larry y -> axis_is y a ax -> llabel y !! ax = Some l -> (1 <= w <= Z.of_nat (length l))%Z ->
  method = MLoop \/ method = MStrides /\ length (llabel y) <= 3 ->
  exists z, larry_move_ranking layout y w (Some a) method = Ok z /\
    lanes_related (moved_by last_ranked (Z.to_nat w)) y (Some a) z.
Proof.
  intros Hlay Hv Hn Hax Hl Hw Hm. unfold larry_move_ranking. rewrite check_numeric_ok by done. cbn [mbind res_bind].
  destruct (np_move_func_spec layout lastrank_func [] y w a ax l method) as (x & -> & Hx); try done.
  eexists. split; [done|]. eapply lanes_to_related; [done|done|lia| |exact Hx]. intros vs ns Hns. by apply lastrank_func_spec.
Qed.
