(** Lemmas about arrays: what [aget] returns after each array operation. *)
From Verif Require Export NDArray BaseFacts.

(** * Multi-indices *)
Lemma in_range_length sh idx : in_range sh idx -> length idx = length sh.
Proof. apply Forall2_length. Qed.
Lemma in_range_nil idx : in_range [] idx <-> idx = [].
Proof. unfold in_range. split; [by inversion 1|intros ->; constructor]. Qed.
Lemma in_range_cons n sh idx :
  in_range (n :: sh) idx <-> exists i idx', idx = i :: idx' /\ i < n /\ in_range sh idx'.
Proof. unfold in_range. split; [inversion 1; eauto|intros (? & ? & -> & ? & ?); by constructor]. Qed.
Lemma in_range_cons' n sh i idx : in_range (n :: sh) (i :: idx) <-> i < n /\ in_range sh idx.
Proof. unfold in_range. by rewrite Forall2_cons. Qed.
Lemma in_range_lookup sh idx ax n i :
  in_range sh idx -> sh !! ax = Some n -> idx !! ax = Some i -> i < n.
Proof. intros H Hn Hi. exact (Forall2_lookup_lr _ _ _ _ _ _ H Hi Hn). Qed.
Lemma in_range_alt sh idx :
  in_range sh idx <-> length idx = length sh /\
    forall ax i n, idx !! ax = Some i -> sh !! ax = Some n -> i < n.
Proof. unfold in_range. rewrite Forall2_same_length_lookup. naive_solver. Qed.
Lemma in_range_insert sh idx ax n i :
  in_range sh idx -> i < n -> in_range (<[ax := n]> sh) (<[ax := i]> idx).
Proof. intros. by apply Forall2_insert. Qed.
Lemma in_range_insert_inv sh idx ax n m i :
  in_range (<[ax := n]> sh) idx -> sh !! ax = Some m -> i < m -> in_range sh (<[ax := i]> idx).
Proof.
  intros H Hm Hi. rewrite <-(list_insert_id sh ax m Hm). rewrite <-(list_insert_insert sh ax m n).
  by apply in_range_insert.
Qed.
Lemma in_range_app sh1 sh2 idx1 idx2 :
  length idx1 = length sh1 ->
  in_range (sh1 ++ sh2) (idx1 ++ idx2) <-> in_range sh1 idx1 /\ in_range sh2 idx2.
Proof.
  intros Hl. unfold in_range. split; [|intros []; by apply Forall2_app].
  intros H. by apply Forall2_app_inv in H.
Qed.

Lemma ravel_lt sh idx : in_range sh idx -> ravel sh idx < size_of sh.
Proof.
  revert idx; induction sh as [|n sh IH]; intros idx; [intros ->%in_range_nil; simpl; lia|].
  intros (i & idx' & -> & Hi & H)%in_range_cons. simpl. specialize (IH _ H). nia.
Qed.

Lemma indices_length sh : length (indices sh) = size_of sh.
Proof.
  induction sh as [|n sh IH]; simpl; [done|].
  generalize 0. induction n as [|n IHn]; intros s; simpl; [done|].
  by rewrite app_length, fmap_length, IHn, IH.
Qed.
Lemma indices_lookup sh k idx :
  indices sh !! k = Some idx <-> in_range sh idx /\ ravel sh idx = k.
Proof.
  revert k idx; induction sh as [|n sh IH]; intros k idx; simpl.
  { rewrite in_range_nil. destruct k as [|k]; simpl; [naive_solver|]. naive_solver. }
  enough (G : forall s, (seq s n ≫= fun i => cons i <$> indices sh) !! k = Some idx <->
    exists i idx', idx = i :: idx' /\ s <= i < s + n /\ in_range sh idx' /\
      k = (i - s) * size_of sh + ravel sh idx').
  { rewrite G, in_range_cons. simpl. split.
    - intros (i & idx' & -> & ? & ? & ->). split; [exists i, idx'; split_and!; auto; lia|]. f_equal. lia.
    - intros [(i & idx' & -> & ? & ?) <-]. exists i, idx'. split_and!; auto; try lia. }
  revert k. induction n as [|n IHn]; intros k s; simpl.
  { split; [done|]. intros (?&?&?&?&?). lia. }
  rewrite lookup_app. destruct ((cons s <$> indices sh) !! k) as [idx0|] eqn:E.
  - apply list_lookup_fmap_Some in E as (idx1 & E & ->). apply IH in E as [Hr <-].
    split.
    + intros [= <-]. exists s, idx1. split_and!; auto; try lia.
    + intros (i & idx' & -> & Hi & Hr' & Hk). f_equal.
      pose proof (ravel_lt _ _ Hr). pose proof (ravel_lt _ _ Hr').
      assert (i = s) as -> by nia. f_equal.
      assert (ravel sh idx1 = ravel sh idx') as He by nia.
      assert (indices sh !! ravel sh idx1 = Some idx1) as G1 by (by apply IH).
      assert (indices sh !! ravel sh idx' = Some idx') as G2 by (by apply IH).
      congruence.
  - apply lookup_ge_None in E. rewrite fmap_length, indices_length in E.
    rewrite IHn, fmap_length, indices_length. split.
    + intros (i & idx' & -> & Hi & Hr & Hk). exists i, idx'. split_and!; auto; try lia.
      replace (i - s) with (S (i - S s)) by lia. simpl. lia.
    + intros (i & idx' & -> & Hi & Hr & Hk). exists i, idx'.
      pose proof (ravel_lt _ _ Hr).
      assert (i <> s). { intros ->. rewrite Nat.sub_diag in Hk. simpl in Hk. lia. }
      split_and!; auto; try lia.
      replace (i - s) with (S (i - S s)) in Hk by lia. simpl in Hk. lia.
Qed.
Lemma elem_of_indices sh idx : idx ∈ indices sh <-> in_range sh idx.
Proof. rewrite elem_of_list_lookup. setoid_rewrite indices_lookup. naive_solver. Qed.
Lemma NoDup_indices sh : NoDup (indices sh).
Proof.
  apply NoDup_alt. intros i j x [_ <-]%indices_lookup [_ <-]%indices_lookup. done.
Qed.
Lemma ravel_inj sh idx1 idx2 :
  in_range sh idx1 -> in_range sh idx2 -> ravel sh idx1 = ravel sh idx2 -> idx1 = idx2.
Proof.
  intros H1 H2 He.
  assert (indices sh !! ravel sh idx1 = Some idx1) as G1 by (by apply indices_lookup).
  assert (indices sh !! ravel sh idx2 = Some idx2) as G2 by (by apply indices_lookup). congruence.
Qed.
Lemma ravel_surj sh k : k < size_of sh -> exists idx, in_range sh idx /\ ravel sh idx = k.
Proof.
  intros Hk. rewrite <-indices_length in Hk. apply lookup_lt_is_Some in Hk as [idx Hidx].
  exists idx. by apply indices_lookup.
Qed.
Lemma size_of_app sh1 sh2 : size_of (sh1 ++ sh2) = size_of sh1 * size_of sh2.
Proof. induction sh1 as [|n sh1 IH]; simpl; [lia|]. rewrite IH. lia. Qed.
Lemma size_of_pos sh : 0 < size_of sh <-> exists idx, in_range sh idx.
Proof.
  split; [intros (idx & ? & _)%ravel_surj; eauto|]. intros [idx H]. pose proof (ravel_lt _ _ H). lia.
Qed.

(** * aget *)
Section aget.
  Context {A : Type}.
  Implicit Types a : arr A.

  Lemma get_in_range a idx v : aget a idx = Some v -> in_range (shape a) idx.
  Proof. unfold aget. by case_decide. Qed.
  Lemma get_not_in_range a idx : ~ in_range (shape a) idx -> aget a idx = None.
  Proof. intros. unfold aget. by case_decide. Qed.
  Lemma get_is_Some a idx : arr_wf a -> is_Some (aget a idx) <-> in_range (shape a) idx.
  Proof.
    intros Hwf. split; [intros [v ?]; by eapply get_in_range|]. intros H. unfold aget.
    rewrite decide_True by done. apply lookup_lt_is_Some. rewrite Hwf. by apply ravel_lt.
  Qed.
  Lemma get_ravel a idx : in_range (shape a) idx -> aget a idx = data a !! ravel (shape a) idx.
  Proof. intros. unfold aget. by rewrite decide_True. Qed.
  Lemma data_get a k v :
    arr_wf a -> data a !! k = Some v <-> exists idx, indices (shape a) !! k = Some idx /\ aget a idx = Some v.
  Proof.
    intros Hwf. split.
    - intros Hk. pose proof (lookup_lt_Some _ _ _ Hk) as Hl. rewrite Hwf in Hl.
      destruct (ravel_surj _ _ Hl) as (idx & Hr & <-). exists idx.
      rewrite indices_lookup, get_ravel; auto.
    - intros (idx & [Hr <-]%indices_lookup & Hg). by rewrite get_ravel in Hg.
  Qed.
  Lemma elem_of_data a v : arr_wf a -> v ∈ data a <-> exists idx, aget a idx = Some v.
  Proof.
    intros Hwf. rewrite elem_of_list_lookup. split.
    - intros [k (idx & _ & ?)%data_get]; eauto.
    - intros [idx Hg]. exists (ravel (shape a) idx). apply get_in_range in Hg as Hr.
      by rewrite <-get_ravel.
  Qed.
  Lemma data_mapM a : arr_wf a -> mapM (aget a) (indices (shape a)) = Some (data a).
  Proof.
    intros Hwf. apply mapM_Some_lookup. split; [by rewrite indices_length|].
    intros k idx Hk. apply indices_lookup in Hk as [Hr <-]. by apply get_ravel.
  Qed.

  (** Arrays are determined by their shape and elements. *)
  Lemma arr_ext a b :
    arr_wf a -> arr_wf b -> shape a = shape b ->
    (forall idx, in_range (shape a) idx -> aget a idx = aget b idx) -> a = b.
  Proof.
    intros Ha Hb Hs Hg. destruct a as [sa da], b as [sb db]. simpl in *. subst sb. f_equal.
    pose proof (data_mapM _ Ha) as Ea. pose proof (data_mapM _ Hb) as Eb. simpl in *.
    enough (Some da = Some db) by congruence. rewrite <-Ea, <-Eb. apply Forall_mapM_ext.
    apply Forall_forall. intros idx ?%elem_of_indices. auto.
  Qed.
End aget.

(** * build and gather *)
Section build.
  Context {A : Type}.
  Implicit Types (f : list nat -> option A) (a : arr A).

  Lemma build_Some sh f a :
    build sh f = Some a <->
    shape a = sh /\ arr_wf a /\ forall idx, in_range sh idx -> aget a idx = f idx.
  Proof.
    unfold build. rewrite fmap_Some. split.
    - intros (d & [Hl Hd]%mapM_Some_lookup & ->). simpl.
      assert (arr_wf (Arr sh d)). { unfold arr_wf. simpl. by rewrite Hl, indices_length. }
      split_and!; [done..|]. intros idx Hr. rewrite get_ravel by done. simpl.
      symmetry. apply Hd. by apply indices_lookup.
    - intros (<- & Hwf & Hg). exists (data a). split; [|by destruct a].
      rewrite <-(data_mapM a Hwf). apply Forall_mapM_ext, Forall_forall.
      intros idx ?%elem_of_indices. symmetry. auto.
  Qed.
  Lemma build_is_Some sh f :
    is_Some (build sh f) <-> forall idx, in_range sh idx -> is_Some (f idx).
  Proof.
    unfold build. rewrite fmap_is_Some, mapM_is_Some, Forall_forall.
    setoid_rewrite elem_of_indices. done.
  Qed.
  Lemma build_ext sh f g :
    (forall idx, in_range sh idx -> f idx = g idx) -> build sh f = build sh g.
  Proof.
    intros H. unfold build. f_equal. apply Forall_mapM_ext, Forall_forall.
    intros idx ?%elem_of_indices. auto.
  Qed.

  Lemma gather_Some a sh m b :
    gather a sh m = Some b <->
    shape b = sh /\ arr_wf b /\ forall idx, in_range sh idx -> aget b idx = m idx ≫= aget a.
  Proof. apply build_Some. Qed.
  Lemma gather_is_Some a sh m :
    is_Some (gather a sh m) <-> forall idx, in_range sh idx -> is_Some (m idx ≫= aget a).
  Proof. apply build_is_Some. Qed.
End build.

Lemma build_get {A} sh f (a : arr A) idx v :
  build sh f = Some a -> aget a idx = Some v <-> in_range sh idx /\ f idx = Some v.
Proof.
  intros (Hs & Hwf & Hg)%build_Some. split.
  - intros H. apply get_in_range in H as Hr. rewrite Hs in Hr. split; [done|]. by rewrite <-Hg.
  - intros [Hr Hf]. by rewrite Hg.
Qed.
Lemma gather_get {A} (a : arr A) sh m b idx v :
  gather a sh m = Some b -> aget b idx = Some v <->
  in_range sh idx /\ exists idx', m idx = Some idx' /\ aget a idx' = Some v.
Proof. intros H. rewrite (build_get _ _ _ _ _ H), bind_Some. done. Qed.

(** * Elementwise operations *)
Lemma amap_wf {A B} (f : A -> B) a : arr_wf a -> arr_wf (amap f a).
Proof. unfold arr_wf, asize. simpl. by rewrite fmap_length. Qed.
Lemma get_amap {A B} (f : A -> B) a idx : aget (amap f a) idx = f <$> aget a idx.
Proof. unfold aget. simpl. case_decide; [by rewrite list_lookup_fmap|done]. Qed.
Lemma azip_wf {A B C} (f : A -> B -> C) a b :
  arr_wf a -> arr_wf b -> shape a = shape b -> arr_wf (azip f a b).
Proof.
  unfold arr_wf, asize. simpl. intros Ha Hb Hs. rewrite zip_with_length, Ha, Hb, <-Hs. lia.
Qed.
Lemma get_azip {A B C} (f : A -> B -> C) a b idx :
  shape a = shape b ->
  aget (azip f a b) idx = (x ← aget a idx; y ← aget b idx; Some (f x y)).
Proof.
  intros Hs. unfold aget. simpl. rewrite <-Hs. case_decide; [|done].
  rewrite lookup_zip_with. destruct (data a !! _); [|done]. by destruct (data b !! _).
Qed.
Lemma full_wf {A} sh (v : A) : arr_wf (full sh v).
Proof. unfold arr_wf, asize. simpl. by rewrite replicate_length. Qed.
Lemma get_full {A} sh (v : A) idx : aget (full sh v) idx = if decide (in_range sh idx) then Some v else None.
Proof.
  unfold aget. simpl. case_decide; [|done]. apply lookup_replicate_2. by apply ravel_lt.
Qed.

(** * Axes *)
Lemma shape_insert_length {A} (sh : list A) ax n : length (<[ax := n]> sh) = length sh.
Proof. apply insert_length. Qed.

Lemma take_pos_Some {A} (a b : arr A) ids ax :
  take_pos a ids ax = Some b <->
  exists n, shape a !! ax = Some n /\ Forall (fun i => i < n) ids /\
  shape b = <[ax := length ids]> (shape a) /\ arr_wf b /\
  forall idx k i, in_range (shape b) idx -> idx !! ax = Some k -> ids !! k = Some i ->
    aget b idx = aget a (<[ax := i]> idx).
Proof.
  unfold take_pos, axlen. destruct (shape a !! ax) as [n|] eqn:En; simpl; [|naive_solver].
  case_decide as Hids; [|naive_solver]. rewrite gather_Some. split.
  - intros (Hs & Hwf & Hg). exists n. split_and!; [done..|]. intros idx k i Hr Hk Hi.
    rewrite Hs in Hr. rewrite Hg by done. by rewrite Hk; simpl; rewrite Hi.
  - intros (n' & [= <-] & _ & Hs & Hwf & Hg). split_and!; [done..|]. intros idx Hr.
    assert (ax < length (shape a)) as Hax by (by eapply lookup_lt_Some).
    assert (ax < length idx) as Hax' by (rewrite (in_range_length _ _ Hr), insert_length; done).
    apply lookup_lt_is_Some in Hax' as [k Hk]. rewrite Hk. simpl.
    assert (k < length ids) as Hkl.
    { eapply (in_range_lookup _ _ ax); [done| |done]. by apply list_lookup_insert. }
    apply lookup_lt_is_Some in Hkl as [i Hi]. rewrite Hi. simpl. apply (Hg idx k i); [|done..].
    by rewrite Hs.
Qed.
Lemma take_pos_is_Some {A} (a : arr A) ids ax :
  arr_wf a -> is_Some (take_pos a ids ax) <->
  exists n, shape a !! ax = Some n /\ Forall (fun i => i < n) ids.
Proof.
  intros Hwf. split; [intros [b (n & ? & ? & _)%take_pos_Some]; eauto|].
  intros (n & Hn & Hids). unfold take_pos, axlen. rewrite Hn. simpl. rewrite decide_True by done.
  apply gather_is_Some. intros idx Hr.
  assert (ax < length (shape a)) as Hax by (by eapply lookup_lt_Some).
  assert (ax < length idx) as Hax' by (rewrite (in_range_length _ _ Hr), insert_length; done).
  apply lookup_lt_is_Some in Hax' as [k Hk]. rewrite Hk. simpl.
  assert (k < length ids) as Hkl.
  { eapply (in_range_lookup _ _ ax); [done| |done]. by apply list_lookup_insert. }
  apply lookup_lt_is_Some in Hkl as [i Hi]. rewrite Hi. simpl.
  apply get_is_Some; [done|]. eapply in_range_insert_inv; [done..|].
  rewrite Forall_lookup in Hids. eauto.
Qed.

(** * Lanes *)
Lemma lane_Some {A} (a : arr A) ax idx l :
  lane a ax idx = Some l <->
  exists n, shape a !! ax = Some n /\ length l = n /\
  forall k, k < n -> aget a (<[ax := k]> idx) = l !! k.
Proof.
  unfold lane, axlen. destruct (shape a !! ax) as [n|] eqn:En; simpl; [|naive_solver].
  rewrite mapM_Some_lookup, seq_length. split.
  - intros [Hl H]. exists n. split_and!; [done..|]. intros k Hk. apply H. by apply lookup_seq_lt.
  - intros (n' & [= <-] & Hl & H). split; [done|]. intros i x [-> Hi]%lookup_seq. apply H. lia.
Qed.
Lemma lane_is_Some {A} (a : arr A) ax idx k :
  arr_wf a -> is_Some (shape a !! ax) -> in_range (shape a) (<[ax := k]> idx) -> is_Some (lane a ax idx).
Proof.
  intros Hwf [n Hn] Hr. unfold lane, axlen. rewrite Hn. simpl. apply mapM_is_Some, Forall_forall.
  intros j [_ Hj]%elem_of_seq. simpl. apply get_is_Some; [done|].
  rewrite <-(list_insert_id _ _ _ Hn), <-(list_insert_insert idx ax j k).
  apply in_range_insert; [done|lia].
Qed.
Lemma lane_is_Some' {A} (a : arr A) ax idx :
  arr_wf a -> is_Some (shape a !! ax) -> in_range (shape a) idx -> is_Some (lane a ax idx).
Proof.
  intros Hwf Hn Hr. destruct Hn as [n Hn].
  assert (ax < length idx) as Hl by (rewrite (in_range_length _ _ Hr); by eapply lookup_lt_Some).
  apply lookup_lt_is_Some in Hl as [k Hk].
  apply (lane_is_Some _ _ _ k); eauto. by rewrite list_insert_id.
Qed.
(** The lane through an element contains it. *)
Lemma lane_lookup {A} (a : arr A) ax idx l k :
  lane a ax idx = Some l -> in_range (shape a) idx -> idx !! ax = Some k -> l !! k = aget a idx.
Proof.
  intros (n & Hn & Hl & H)%lane_Some Hr Hk. rewrite <-H; [by rewrite list_insert_id|].
  by eapply in_range_lookup.
Qed.
Lemma lane_insert {A} (a : arr A) ax idx k : lane a ax (<[ax := k]> idx) = lane a ax idx.
Proof.
  unfold lane. destruct (axlen a ax); simpl; [|done]. apply mapM_ext. intros j. by rewrite list_insert_insert.
Qed.

Lemma along_Some {A B} (f : list A -> list B) (a : arr A) (b : arr B) ax :
  (forall l, length (f l) = length l) -> arr_wf a ->
  along f a ax = Some b ->
  shape b = shape a /\ arr_wf b /\
  forall idx, in_range (shape a) idx -> exists l k,
    lane a ax idx = Some l /\ idx !! ax = Some k /\ aget b idx = f l !! k /\ is_Some (aget b idx).
Proof.
  intros Hf Hwf (Hs & Hb & Hg)%build_Some. split_and!; [done..|]. intros idx Hr.
  specialize (Hg idx Hr). assert (is_Some (aget b idx)) as [v Hv].
  { apply get_is_Some; [done|]. by rewrite Hs. }
  rewrite Hv in Hg. destruct (lane a ax idx) as [l|]; [|done]. destruct (idx !! ax) as [k|]; [|done].
  simpl in Hg. exists l, k. rewrite Hv. eauto.
Qed.
Lemma along_is_Some {A B} (f : list A -> list B) (a : arr A) ax :
  (forall l, length (f l) = length l) -> arr_wf a -> is_Some (shape a !! ax) ->
  is_Some (along f a ax).
Proof.
  intros Hf Hwf Hax. apply build_is_Some. intros idx Hr.
  destruct (lane_is_Some' a ax idx Hwf Hax Hr) as [l Hl]. rewrite Hl. simpl.
  destruct Hax as [n Hn].
  assert (ax < length idx) as Hk by (rewrite (in_range_length _ _ Hr); by eapply lookup_lt_Some).
  apply lookup_lt_is_Some in Hk as [k Hk]. rewrite Hk. simpl.
  apply lookup_lt_is_Some. rewrite Hf. apply lane_Some in Hl as (n' & Hn' & -> & _).
  by eapply in_range_lookup.
Qed.

(** * Inserting and removing axes *)
Section ins.
  Context {A : Type}.
  Implicit Types (l : list A) (x : A).

  Lemma insert_at_length ax x l : ax <= length l -> length (insert_at ax x l) = S (length l).
  Proof. intros. unfold insert_at. rewrite app_length, take_length. simpl. rewrite drop_length. lia. Qed.
  Lemma insert_at_lookup ax x l : ax <= length l -> insert_at ax x l !! ax = Some x.
  Proof.
    intros. unfold insert_at. rewrite lookup_app_r; rewrite take_length; [|lia].
    replace (ax - _) with 0 by lia. done.
  Qed.
  Lemma remove_insert_at ax x l : ax <= length l -> remove_at ax (insert_at ax x l) = l.
  Proof.
    intros. unfold remove_at, insert_at.
    rewrite delete_take_drop, take_app_alt by (rewrite take_length; lia).
    rewrite drop_app_ge by (rewrite take_length; lia). rewrite take_length.
    replace (S ax - _) with 1 by lia. simpl. rewrite drop_0. apply take_drop.
  Qed.
  Lemma insert_remove_at ax x l : l !! ax = Some x -> insert_at ax x (remove_at ax l) = l.
  Proof.
    intros Hx. unfold remove_at, insert_at. rewrite delete_take_drop.
    assert (length (take ax l) = ax) as Hl.
    { rewrite take_length. apply lookup_lt_Some in Hx. lia. }
    rewrite take_app_alt, drop_app_alt by done. by apply take_drop_middle.
  Qed.
  Lemma insert_insert_at ax x y l : ax <= length l -> <[ax := y]> (insert_at ax x l) = insert_at ax y l.
  Proof.
    intros. unfold insert_at. rewrite insert_app_r_alt; rewrite take_length; [|lia].
    by replace (ax - _) with 0 by lia.
  Qed.
  Lemma remove_at_insert ax x l : remove_at ax (<[ax := x]> l) = remove_at ax l.
  Proof.
    unfold remove_at. destruct (decide (ax < length l)) as [Hl|Hl].
    - apply lookup_lt_is_Some in Hl as [y Hy].
      rewrite !delete_take_drop, take_insert, drop_insert_gt by lia. done.
    - by rewrite list_insert_ge by lia.
  Qed.
  Lemma remove_at_length ax l : ax < length l -> length (remove_at ax l) = pred (length l).
  Proof. intros [x Hx]%lookup_lt_is_Some. unfold remove_at. rewrite length_delete by eauto. lia. Qed.
End ins.

Lemma in_range_insert_at sh idx ax n i :
  ax <= length sh -> length idx = length sh ->
  in_range (insert_at ax n sh) (insert_at ax i idx) <-> i < n /\ in_range sh idx.
Proof.
  intros Hax Hl. unfold insert_at. rewrite in_range_app by (rewrite !take_length; lia).
  rewrite in_range_cons'. rewrite <-(take_drop ax sh) at 3. rewrite <-(take_drop ax idx) at 3.
  rewrite (in_range_app (take ax sh)) by (rewrite !take_length; lia). naive_solver.
Qed.
Lemma in_range_remove_at sh idx ax n :
  sh !! ax = Some n -> in_range sh idx -> in_range (remove_at ax sh) (remove_at ax idx).
Proof.
  intros Hn Hr. assert (is_Some (idx !! ax)) as [k Hk].
  { apply lookup_lt_is_Some. rewrite (in_range_length _ _ Hr). by eapply lookup_lt_Some. }
  pose proof (in_range_length _ _ Hr) as Hlen. pose proof (lookup_lt_Some _ _ _ Hn) as Hax.
  rewrite <-(insert_remove_at ax n sh), <-(insert_remove_at ax k idx) in Hr by done.
  apply in_range_insert_at in Hr; [by apply Hr| |]; rewrite !remove_at_length by lia; lia.
Qed.

Lemma reduce_Some {A B} (f : list A -> B) (a : arr A) (b : arr B) ax :
  arr_wf a -> reduce f a ax = Some b ->
  shape b = remove_at ax (shape a) /\ arr_wf b /\ forall idx, in_range (remove_at ax (shape a)) idx ->
    aget b idx = f <$> lane a ax (insert_at ax 0 idx).
Proof.
  intros Hwf. unfold reduce, axlen. destruct (shape a !! ax) as [n|] eqn:En; [|done]. simpl.
  intros (Hs & Hb & Hg)%build_Some. done.
Qed.
Lemma reduce_is_Some {A B} (f : list A -> B) (a : arr A) ax :
  arr_wf a -> is_Some (shape a !! ax) -> is_Some (reduce f a ax).
Proof.
  intros Hwf [n Hn]. unfold reduce, axlen. rewrite Hn. simpl. apply build_is_Some.
  intros idx Hr. apply fmap_is_Some.
  pose proof (in_range_length _ _ Hr) as Hl. pose proof (lookup_lt_Some _ _ _ Hn) as Hax.
  rewrite remove_at_length in Hl by done.
  unfold lane, axlen. rewrite Hn. simpl. apply mapM_is_Some, Forall_forall.
  intros j [_ Hj]%elem_of_seq. simpl. apply get_is_Some; [done|].
  rewrite insert_insert_at by lia. rewrite <-(insert_remove_at ax n (shape a)) by done.
  apply in_range_insert_at; [rewrite remove_at_length by done; lia..|]. split; [lia|done].
Qed.

(** * swap *)
Lemma swap_at_length {A} i j (l l' : list A) : swap_at i j l = Some l' -> length l' = length l.
Proof.
  unfold swap_at. destruct (l !! i), (l !! j); simpl; try done. intros [= <-]. by rewrite !insert_length.
Qed.
Lemma swap_at_is_Some {A} i j (l : list A) : is_Some (swap_at i j l) <-> i < length l /\ j < length l.
Proof.
  rewrite <-!lookup_lt_is_Some. unfold swap_at.
  unfold is_Some. destruct (l !! i), (l !! j); simpl; naive_solver.
Qed.
Lemma swap_at_lookup {A} i j (l l' : list A) k :
  swap_at i j l = Some l' ->
  l' !! k = l !! (if decide (k = i) then j else if decide (k = j) then i else k).
Proof.
  unfold swap_at. destruct (l !! i) as [x|] eqn:Ei; [|done]. destruct (l !! j) as [y|] eqn:Ej; [|done].
  simpl. intros [= <-].
  pose proof (lookup_lt_Some _ _ _ Ei). pose proof (lookup_lt_Some _ _ _ Ej).
  case_decide; [subst; by rewrite list_lookup_insert by (by rewrite insert_length)|].
  rewrite list_lookup_insert_ne by done. case_decide; [subst; by rewrite list_lookup_insert|].
  by rewrite list_lookup_insert_ne.
Qed.
Lemma swap_at_invol {A} i j (l l' : list A) : swap_at i j l = Some l' -> swap_at i j l' = Some l.
Proof.
  intros H. assert (is_Some (swap_at i j l')) as [l'' H'].
  { apply swap_at_is_Some. rewrite (swap_at_length _ _ _ _ H). apply swap_at_is_Some. eauto. }
  rewrite H'. f_equal. apply list_eq. intros k.
  rewrite (swap_at_lookup _ _ _ _ _ H'), (swap_at_lookup _ _ _ _ _ H).
  f_equal. repeat case_decide; congruence.
Qed.
Lemma in_range_swap i j sh sh' idx idx' :
  swap_at i j sh = Some sh' -> swap_at i j idx = Some idx' ->
  in_range sh idx -> in_range sh' idx'.
Proof.
  intros Hs Hi. rewrite !in_range_alt.
  rewrite (swap_at_length _ _ _ _ Hs), (swap_at_length _ _ _ _ Hi). intros [? H]. split; [done|].
  intros ax k n. rewrite (swap_at_lookup _ _ _ _ _ Hs), (swap_at_lookup _ _ _ _ _ Hi). apply H.
Qed.
