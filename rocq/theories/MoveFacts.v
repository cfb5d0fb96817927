(** movingsum is a windowed sum. *)
From Verif Require Export Move FarrayFacts NumericFacts LarryMove RankLarry.

Lemma scan_lookup_fold {A} (f : A -> A -> A) (e : A) l k :
  (forall a, f e a = a) -> k < length l -> scan f l !! k = Some (fold_left f (take (S k) l) e).
Proof.
  intros He Hk. destruct l as [|x l]; [simpl in Hk; lia|]. rewrite (scan_lookup f (x :: l) k x l) by done.
  rewrite firstn_cons. simpl. by rewrite He.
Qed.
Lemma total_present ns :
  num_total ((fun v : num => if is_nan v then num_of_Z 0 else v) <$> ns) = num_total (present ns).
Proof.
  induction ns as [|n ns IH]; [done|]. rewrite fmap_cons. unfold present in *. rewrite filter_cons. destruct n as [q| | |]; cbn [is_nan].
  - rewrite decide_True by done. cbn [num_total foldr] in *. unfold num_total in *. cbn [foldr]. by rewrite IH.
  - rewrite decide_False by naive_solver. unfold num_total in *. cbn [foldr]. by rewrite num_add_0_l, IH.
  - rewrite decide_True by done. unfold num_total in *. cbn [foldr]. by rewrite IH.
  - rewrite decide_True by done. unfold num_total in *. cbn [foldr]. by rewrite IH.
Qed.
Lemma fold_add_Z l a : fold_left Z.add l a = (a + foldr Z.add 0 l)%Z.
Proof. revert a. induction l as [|x l IH]; intros a; simpl; [lia|]. rewrite IH. lia. Qed.
Lemma count_present ns :
  foldr Z.add 0%Z ((fun b : bool => if b then 0%Z else 1%Z) <$> (is_nan <$> ns)) = Z.of_nat (length (present ns)).
Proof.
  induction ns as [|n ns IH]; [done|]. rewrite !fmap_cons. unfold present in *. rewrite filter_cons. cbn [foldr]. rewrite IH.
  destruct n; cbn [is_nan]; [rewrite decide_True by done; simpl length; lia|rewrite decide_False by naive_solver; lia|
    rewrite decide_True by done; simpl length; lia..].
Qed.
Lemma csx_lookup ns k : k < length ns ->
  scan num_add ((fun v : num => if is_nan v then num_of_Z 0 else v) <$> ns) !! k = Some (num_total (present (take (S k) ns))).
Proof.
  intros Hk. rewrite (scan_lookup_fold num_add (num_of_Z 0)); [|apply num_add_0_l|by rewrite fmap_length].
  f_equal. rewrite fold_total, num_add_0_l. rewrite <-fmap_take. apply total_present.
Qed.
Lemma csm_lookup ns k : k < length ns ->
  scan Z.add ((fun b : bool => if b then 0%Z else 1%Z) <$> (is_nan <$> ns)) !! k = Some (Z.of_nat (length (present (take (S k) ns)))).
Proof.
  intros Hk. rewrite (scan_lookup_fold Z.add 0%Z); [|intros; lia|by rewrite !fmap_length].
  f_equal. rewrite fold_add_Z, Z.add_0_l. rewrite <-!fmap_take. apply count_present.
Qed.
Lemma present_app l1 l2 : present (l1 ++ l2) = present l1 ++ present l2.
Proof. apply filter_app. Qed.
Lemma take_window {A} j w (l : list A) : take (j + w) l = take j l ++ take w (drop j l).
Proof. symmetry. apply take_take_drop. Qed.
Lemma total_finite ns : no_infinity ns -> exists q, num_total (present ns) = Fin q.
Proof.
  intros Hi. destruct (finite_fin _ (no_infinity_present _ Hi)) as [qs ->]. rewrite total_fin. eauto.
Qed.
Lemma num_add_sub c t : num_sub (num_add (Fin c) t) (Fin c) = t.
Proof. destruct t; unfold num_sub; cbn; try done. f_equal. ring. Qed.
Lemma behind_infinity c t : is_finite c = false -> num_sub (num_add c t) c = NaN.
Proof. by destruct c, t. Qed.
Lemma total_infinite ns : ~ no_infinity ns -> is_finite (num_total (present ns)) = false.
Proof.
  intros Hi. induction ns as [|n ns IH]; [destruct Hi; by intros ? ?%elem_of_nil|].
  unfold present, num_total in *. rewrite filter_cons. destruct (decide (is_inf n = true)) as [Hn|Hn].
  - rewrite decide_True by (by intros ->). cbn [foldr]. by destruct n, (foldr num_add _ _).
  - assert (is_finite (foldr num_add (num_of_Z 0) (filter (fun n => n <> NaN) ns)) = false) as Hf.
    { apply IH. intros H. apply Hi. intros m [-> |Hm]%elem_of_cons; [by apply not_true_is_false|by apply H]. }
    destruct (decide (n <> NaN)); [|done]. cbn [foldr]. by destruct n, (foldr num_add _ _).
Qed.

Lemma nothing_over_nothing q : num_div (num_mul (Fin q) (num_of_Z 0)) (num_of_Z 0) = NaN.
Proof.
  unfold num_of_Z. rewrite Qc_of_Z_0. cbn [num_mul]. rewrite Qcmult_0_r. cbn [num_div]. by rewrite decide_True.
Qed.

(** The list [take 1 l ++ zip_with f (drop 1 l) r]. *)
Lemma head_zip_lookup {A B} (f : A -> B -> A) (l : list A) (r : list B) j :
  (take 1 l ++ zip_with f (drop 1 l) r) !! j =
  match j with 0 => l !! 0 | S j' => a ← l !! j; b ← r !! j'; Some (f a b) end.
Proof.
  destruct l as [|x l].
  - simpl. rewrite ?drop_nil. destruct j; done.
  - simpl. rewrite drop_0. destruct j; [done|]. simpl. by rewrite lookup_zip_with.
Qed.
Lemma slice_lookup {A} (l : list A) w m j : (drop w (take m l)) !! j = if decide (w + j < m) then l !! (w + j) else None.
Proof.
  rewrite lookup_drop. destruct (decide _); [by apply lookup_take|]. apply lookup_take_ge. lia.
Qed.

Lemma movingsum_lane_spec w s norm ns :
  1 <= w -> w <= length ns -> moving_sum w s norm ns (movingsum_lane w s norm ns).
Proof.
  intros Hw Hwn. unfold movingsum_lane.
  set (csx := scan num_add _). set (csm := scan Z.add _). set (n := length ns).
  set (msx := take 1 _ ++ _). set (msm := take 1 _ ++ zip_with Z.sub _ _). set (ms := zip_with _ msx msm).
  assert (Hx : forall j, w - 1 + j < n - s -> msx !! j = Some (match j with 0 => num_total (present (take w ns)) | S j' => num_sub (num_total (present (take (j + w) ns))) (num_total (present (take j ns))) end)).
  { intros j Hj. unfold msx. rewrite head_zip_lookup. destruct j as [|j].
    - rewrite slice_lookup, decide_True by lia. unfold csx. rewrite csx_lookup by lia. do 4 f_equal. lia.
    - rewrite slice_lookup, decide_True by lia. unfold csx. rewrite csx_lookup by lia. cbn [mbind option_bind].
      rewrite lookup_take by lia. rewrite csx_lookup by lia. cbn [mbind option_bind]. do 5 f_equal. lia. }
  assert (Hm : forall j, w - 1 + j < n - s -> msm !! j = Some (Z.of_nat (length (present (take w (drop j ns)))))).
  { intros j Hj. unfold msm. rewrite head_zip_lookup. destruct j as [|j].
    - rewrite slice_lookup, decide_True by lia. unfold csm. rewrite csm_lookup by lia. rewrite drop_0. do 5 f_equal. lia.
    - rewrite slice_lookup, decide_True by lia. unfold csm. rewrite csm_lookup by lia. cbn [mbind option_bind].
      rewrite lookup_take by lia. rewrite csm_lookup by lia. cbn [mbind option_bind]. f_equal.
      replace (S (w - 1 + S j)) with (S j + w) by lia. rewrite take_window, present_app, app_length. lia. }
  assert (Hlx : length msx = n - s - (w - 1)).
  { unfold msx. rewrite app_length, zip_with_length, !take_length, !drop_length, !take_length. unfold csx. rewrite scan_length, fmap_length. fold n. lia. }
  assert (Hlm : length msm = n - s - (w - 1)).
  { unfold msm. rewrite app_length, zip_with_length, !take_length, !drop_length, !take_length. unfold csm. rewrite scan_length, !fmap_length. fold n. lia. }
  assert (Hl : length ms = n - s - (w - 1)) by (unfold ms; rewrite zip_with_length; lia).
  assert (Hpad : length (take (s + w - 1) (replicate n NaN)) = (s + w - 1) `min` n) by (by rewrite take_length, replicate_length).
  split.
  { rewrite app_length, Hpad, Hl. fold n. lia. }
  intros k Hk. fold n in Hk. destruct (decide (k + 1 < w + s)) as [Hks|Hks].
  - rewrite lookup_app_l by (rewrite Hpad; lia). rewrite lookup_take by lia. by apply lookup_replicate_2.
  - rewrite lookup_app_r by (rewrite Hpad; lia). rewrite Hpad. set (j := k - (s + w - 1) `min` n).
    assert (Hj : j = k + 1 - w - s) by lia. unfold window_at. rewrite <-Hj in *. clearbody j.
    assert (Hjn : w - 1 + j < n - s) by lia. split; intros Hi; [|]; cycle 1.
    { destruct j as [|j]; [destruct Hi; by intros ? ?%elem_of_nil|].
      assert (Hx' : msx !! S j = Some NaN).
      { rewrite Hx by done. f_equal. rewrite take_window, present_app, total_app. apply behind_infinity.
        by apply total_infinite. }
      unfold ms. rewrite lookup_zip_with, Hx', (Hm (S j) Hjn). cbn [mbind option_bind]. f_equal.
      destruct norm; [done|]. by destruct (decide _). }
    assert (Hx' : msx !! j = Some (num_total (present (take w (drop j ns))))).
    { rewrite Hx by done. f_equal. destruct j as [|j]; [by rewrite drop_0|].
      rewrite take_window, present_app, total_app. destruct (total_finite _ Hi) as [q ->]. apply num_add_sub. }
    unfold ms. rewrite lookup_zip_with, Hx', (Hm j Hjn). cbn [mbind option_bind]. f_equal. unfold window_sum.
    set (p := present _). destruct (decide (p = [])) as [->|Hp].
    + destruct norm; [|by rewrite decide_True]. apply (nothing_over_nothing (Qc_of_Z (Z.of_nat w))).
    + destruct norm; [done|]. rewrite decide_False; [done|]. destruct p; [done|]. simpl. lia.
Qed.

Lemma movingsum_total x y w s a norm ax l :
  x = lx y -> valid y -> numeric_larry y -> axis_is y a ax -> llabel y !! ax = Some l ->
  (1 <= w <= Z.of_nat (length l))%Z -> s <= length l ->
  exists x', np_movingsum x w s a norm = Ok x' /\ lanes_related (moving_sum (Z.to_nat w) s norm) y (Some a) (Larry x' (llabel y)).
Proof.
  intros -> Hv Hn Hax Hl Hw Hs. unfold np_movingsum. rewrite decide_False by lia.
  change (nd_ndim (lx y)) with (lndim y). change (nd_arr (lx y)) with (larr y).
  rewrite (proj1 (axis_is_py y a ax Hv) Hax). cbn [of_opt mbind res_bind].
  rewrite (valid_axis_len y ax l) by done. cbn [of_opt mbind res_bind].
  rewrite decide_False by lia. rewrite decide_False by lia.
  apply lanewise_spec; try done. intros ns (l' & Hl' & Hlen). assert (l' = l) as -> by congruence.
  assert (Hm : moving_sum (Z.to_nat w) s norm ns (movingsum_lane (Z.to_nat w) s norm ns)) by (apply movingsum_lane_spec; lia).
  split; [apply Hm|done].
Qed.
Lemma movingsum_error x y w s a norm :
  x = lx y -> valid y ->
  ((w < 1)%Z -> np_movingsum x w s a norm = Err ValueError) /\
  (forall ax l, axis_is y a ax -> llabel y !! ax = Some l ->
    ((Z.of_nat (length l) < w)%Z -> np_movingsum x w s a norm = Err ValueError) /\
    ((1 <= w <= Z.of_nat (length l))%Z -> length l < s -> np_movingsum x w s a norm = Err IndexError)) /\
  ((1 <= w)%Z -> (forall ax, ~ axis_is y a ax) -> np_movingsum x w s a norm = Err IndexError).
Proof.
  intros -> Hv. unfold np_movingsum. split_and!.
  - intros Hw. by rewrite decide_True.
  - intros ax l Hax Hl. change (nd_ndim (lx y)) with (lndim y). change (nd_arr (lx y)) with (larr y).
    rewrite (proj1 (axis_is_py y a ax Hv) Hax). cbn [of_opt mbind res_bind].
    rewrite (valid_axis_len y ax l) by done. cbn [of_opt mbind res_bind]. split.
    + intros Hw. destruct (decide (w < 1)%Z); [done|]. by rewrite decide_True.
    + intros Hw Hs. rewrite decide_False by lia. rewrite decide_False by lia. by rewrite decide_True.
  - intros Hw Hax. rewrite decide_False by lia. change (nd_ndim (lx y)) with (lndim y).
    destruct (py_index (lndim y) a) as [ax|] eqn:E; [|done]. destruct (Hax ax). by apply axis_is_py.
Qed.

(** ** movingsum_forward *)
Lemma flip_lane y y' ax l ls vs :
  llabel y !! ax = Some l -> llabel y' = <[ax := reverse l]> (llabel y) ->
  (forall x v, x ∈ l -> cell y (with_label ax x ls) = Some v -> cell y' (with_label ax x ls) = Some v) ->
  lane_of y ax ls vs -> lane_of y' ax ls (reverse vs).
Proof.
  intros Hl Hl' Hc (l0 & Hl0 & H). assert (l0 = l) as -> by congruence. exists (reverse l).
  split; [rewrite Hl'; apply list_lookup_insert; by eapply lookup_lt_Some|].
  apply Forall2_reverse. apply Forall2_same_length_lookup. split; [by eapply Forall2_length|].
  intros i x v Hx Hv. apply Hc; [by eapply elem_of_list_lookup_2|]. eapply Forall2_lookup_lr in H; [|done..]. done.
Qed.
Lemma flip_back y y' ax l ls ws :
  llabel y !! ax = Some l -> llabel y' = <[ax := reverse l]> (llabel y) -> (forall ls, cell y' ls = cell y ls) ->
  lane_of y' ax ls ws -> lane_of y ax ls (reverse ws).
Proof.
  intros Hl Hl' Hc H.
  assert (Hx : llabel y' !! ax = Some (reverse l)) by (rewrite Hl'; apply list_lookup_insert; by eapply lookup_lt_Some).
  apply (flip_lane y' y ax (reverse l)); try done.
  - rewrite Hl', reverse_involutive, list_insert_insert. symmetry. by apply list_insert_id.
  - intros x v _. by rewrite Hc.
Qed.

Lemma axis_is_label y y' a ax : length (llabel y') = length (llabel y) -> axis_is y a ax -> axis_is y' a ax.
Proof. unfold axis_is. by intros ->. Qed.
Theorem movingsum_forward_total y w s a norm ax l :
  valid y -> numeric_larry y -> axis_is y a ax -> llabel y !! ax = Some l ->
  (1 <= w <= Z.of_nat (length l))%Z -> s <= length l ->
  exists z, larry_movingsum_forward y w s a norm = Ok z /\
    lanes_related (fun ns ms => moving_sum (Z.to_nat w) s norm (reverse ns) (reverse ms)) y (Some a) z.
Proof.
  intros Hv Hn Hax Hl Hw Hs. unfold larry_movingsum_forward, np_movingsum_forward.
  pose proof (proj1 (axis_is_py y a ax Hv) Hax) as Hp. change (nd_ndim (lx y)) with (lndim y). rewrite Hp. cbn [of_opt mbind res_bind].
  change (nd_arr (lx y)) with (larr y).
  assert (Hpy : py_axis y a = Ok ax) by (by apply py_axis_is).
  destruct (flip_one_spec y a ax l Hv Hpy Hl) as (y' & Hy' & Hv' & Hd' & Hl' & Hc').
  assert (Hb : exists b, slice_axis (larr y) flip_slice ax = Ok b /\ lx y' = Nda (ldtype y) b).
  { unfold flip_one in Hy'. rewrite Hpy in Hy'. cbn [mbind res_bind] in Hy'.
    apply bind_ok in Hy' as (l1 & _ & Hy'). apply bind_ok in Hy' as (l2 & _ & Hy'). apply bind_ok in Hy' as (b & Hb & [= <-]). by exists b. }
  destruct Hb as (b & -> & Hb). cbn [mbind res_bind]. change (nd_dtype (lx y)) with (ldtype y). rewrite <-Hb.
  assert (Hll : llabel y' !! ax = Some (reverse l)) by (rewrite Hl'; apply list_lookup_insert; by eapply lookup_lt_Some).
  assert (Hlen : length (llabel y') = length (llabel y)) by (by rewrite Hl', insert_length).
  destruct (movingsum_total (lx y') y' w s a norm ax (reverse l)) as (x' & Hx' & Hrel); try done.
  { by unfold numeric_larry; rewrite Hd'. }
  { by apply (axis_is_label y). }
  { by rewrite reverse_length. }
  { by rewrite reverse_length. }
  rewrite Hx'. cbn [mbind res_bind]. set (z1 := Larry x' (llabel y')) in *.
  destruct Hrel as (Hvz & Hdz & Hlz & ax' & Hax' & Hrel).
  assert (ax' = ax) as -> by (unfold axis_is in *; lia).
  assert (Hpz : py_axis z1 a = Ok ax) by (apply py_axis_is; by apply (axis_is_label y)).
  destruct (flip_one_spec z1 a ax (reverse l) Hvz Hpz Hll) as (z & Hz & Hvz2 & Hdz2 & Hlz2 & Hcz).
  change (nd_arr x') with (larr z1).
  assert (Hc : exists c, slice_axis (larr z1) flip_slice ax = Ok c /\ lx z = Nda (ldtype z1) c).
  { unfold flip_one in Hz. rewrite Hpz in Hz. cbn [mbind res_bind] in Hz.
    apply bind_ok in Hz as (l1 & _ & Hz). apply bind_ok in Hz as (l2 & _ & Hz). apply bind_ok in Hz as (c & Hc & [= <-]). by exists c. }
  destruct Hc as (c & -> & Hc). cbn [mbind res_bind]. change (nd_dtype x') with (ldtype z1). rewrite <-Hc.
  assert (Hlast : llabel z = llabel y).
  { rewrite Hlz2, reverse_involutive. change (llabel z1) with (llabel y'). rewrite Hl', list_insert_insert. by apply list_insert_id. }
  exists z. split; [by rewrite <-Hlast; destruct z|]. split_and!; [done|congruence|done|].
  exists ax. split; [done|]. intros ls Hg.
  assert (Hdel : delete ax (llabel y') = delete ax (llabel y)).
  { rewrite Hl'. rewrite !delete_take_drop. rewrite take_insert, drop_insert_gt by lia. done. }
  destruct (Hrel ls) as (vs & ns & ms & Hvs & Hns & Hms & HR); [by rewrite Hdel|].
  exists (reverse vs), (reverse ns), (reverse ms). rewrite !reverse_involutive. split_and!.
  - by apply (flip_back y y' ax l).
  - by apply Forall2_reverse.
  - rewrite fmap_reverse. apply (flip_lane z1 z ax (reverse l)); [done|done| |done]. intros x v _ Hx. by rewrite Hcz.
  - done.
Qed.
Theorem movingsum_forward_error y w s a norm :
  valid y ->
  (forall ax l, axis_is y a ax -> llabel y !! ax = Some l ->
    ((w < 1 \/ Z.of_nat (length l) < w)%Z -> larry_movingsum_forward y w s a norm = Err ValueError) /\
    ((1 <= w <= Z.of_nat (length l))%Z -> length l < s -> larry_movingsum_forward y w s a norm = Err IndexError)) /\
  ((forall ax, ~ axis_is y a ax) -> larry_movingsum_forward y w s a norm = Err IndexError).
Proof.
  intros Hv. unfold larry_movingsum_forward, np_movingsum_forward. change (nd_ndim (lx y)) with (lndim y). split.
  - intros ax l Hax Hl. pose proof (proj1 (axis_is_py y a ax Hv) Hax) as Hp. rewrite Hp. cbn [of_opt mbind res_bind].
    change (nd_arr (lx y)) with (larr y).
    assert (Hpy : py_axis y a = Ok ax) by (by apply py_axis_is).
    destruct (flip_one_spec y a ax l Hv Hpy Hl) as (y' & Hy' & Hv' & Hd' & Hl' & Hc').
    assert (Hb : exists b, slice_axis (larr y) flip_slice ax = Ok b /\ lx y' = Nda (ldtype y) b).
    { unfold flip_one in Hy'. rewrite Hpy in Hy'. cbn [mbind res_bind] in Hy'.
      apply bind_ok in Hy' as (l1 & _ & Hy'). apply bind_ok in Hy' as (l2 & _ & Hy'). apply bind_ok in Hy' as (b & Hb & [= <-]). by exists b. }
    destruct Hb as (b & -> & Hb). cbn [mbind res_bind]. change (nd_dtype (lx y)) with (ldtype y). rewrite <-Hb.
    assert (Hll : llabel y' !! ax = Some (reverse l)) by (rewrite Hl'; apply list_lookup_insert; by eapply lookup_lt_Some).
    assert (Hlen : length (llabel y') = length (llabel y)) by (by rewrite Hl', insert_length).
    destruct (movingsum_error (lx y') y' w s a norm eq_refl Hv') as (H1 & H2 & _).
    destruct (H2 ax (reverse l)) as [H3 H4]; [by apply (axis_is_label y)|done|]. rewrite reverse_length in *. split.
    + intros [Hw|Hw]; [by rewrite H1|by rewrite H3].
    + intros Hw Hs. by rewrite H4.
  - intros Hax. destruct (py_index (lndim y) a) as [ax|] eqn:E; [|done]. destruct (Hax ax). by apply axis_is_py.
Qed.
