(** Facts about the group functions. *)
From Verif Require Export Group RankLarry MoveFacts StridesFacts AlignMore.
From stdpp Require Import sorting.

(** * Groups *)

Lemma same_group_eq v w : same_group v w = true <-> group_eq v w.
Proof.
  unfold same_group, group_eq.
  assert (H : forall a b : option num, match a, b with Some n, Some m => num_eqb n m | _, _ => false end = true <-> a = b /\ a <> None /\ a <> Some NaN).
  { intros [a|] [b|]; [|split; [done|naive_solver]..]. rewrite num_eqb_same. unfold num_same. naive_solver. }
  destruct v, w; try apply H. by rewrite bool_decide_eq_true.
Qed.
Lemma group_eq_sym v w : group_eq v w -> group_eq w v.
Proof. destruct v, w; simpl; try done; intros (E & ? & ?); rewrite ?E in *; try done. Qed.
Lemma group_eq_trans u v w : group_eq u v -> group_eq v w -> group_eq u w.
Proof.
  destruct u, v, w; simpl; try done; try (by intros -> ->); try (by intros [E ?] [? ?]; try done; rewrite ?E in *; split_and?; naive_solver congruence).
Qed.
Lemma group_eq_refl_l v w : group_eq v w -> group_eq v v.
Proof. intros H. eapply group_eq_trans; [exact H|by apply group_eq_sym]. Qed.
Lemma not_none_group : ~ group_eq VNone VNone.
Proof. simpl. naive_solver. Qed.

Lemma py_set_aux gs acc :
  let s := fold_left (fun acc v => if existsb (same_group v) acc then acc else acc ++ [v]) gs acc in
  (forall v, v ∈ acc -> v ∈ s) /\
  (forall v, v ∈ s -> v ∈ acc \/ v ∈ gs) /\
  (forall v, v ∈ gs -> v ∈ s \/ exists w, w ∈ s /\ group_eq v w).
Proof.
  revert acc. induction gs as [|g gs IH]; intros acc; simpl.
  { split_and!; [auto|auto|]. intros v Hv. by apply elem_of_nil in Hv. }
  destruct (existsb (same_group g) acc) eqn:E.
  - destruct (IH acc) as (H2 & H3 & H4). split_and!; [done| |].
    + intros v Hv. apply H3 in Hv as [?|?]; [by left|right; by right].
    + intros v [-> |Hv]%elem_of_cons; [|auto]. apply existsb_exists in E as (w & Hw & Hs). apply elem_of_list_In in Hw.
      right. exists w. split; [auto|by apply same_group_eq].
  - destruct (IH (acc ++ [g])) as (H2 & H3 & H4). split_and!.
    + intros v Hv. apply H2. apply elem_of_app. by left.
    + intros v Hv. apply H3 in Hv as [[?|Hv]%elem_of_app|?]; [by left| |right; by right].
      apply elem_of_list_singleton in Hv as ->. right. by left.
    + intros v [-> |Hv]%elem_of_cons; [|auto]. left. apply H2. apply elem_of_app. right. by apply elem_of_list_singleton.
Qed.
Lemma py_set_spec gs :
  (forall v, v ∈ py_set gs -> v ∈ gs) /\
  (forall v, v ∈ gs -> v ∈ py_set gs \/ exists w, w ∈ py_set gs /\ group_eq v w).
Proof.
  destruct (py_set_aux gs []) as (_ & H3 & H4). split; [|done]. intros v [Hv|?]%H3; [by apply elem_of_nil in Hv|done].
Qed.
(** What the loops need of the list of groups. *)
Definition covers (gs ug : list val) : Prop := forall v, v ∈ gs -> group_eq v v -> exists w, w ∈ ug /\ group_eq v w.
Lemma unique_group_covers gs ug : unique_group gs = Ok ug -> covers gs ug /\ (forall v, v ∈ ug -> v ∈ gs /\ v <> VNone).
Proof.
  unfold unique_group. destruct (_ || _); [|done]. intros [= <-]. destruct (py_set_spec gs) as [H1 H2].
  assert (Hm : forall v, v ∈ merge_sort val_order (filter (fun v => v <> VNone) (py_set gs)) <-> v <> VNone /\ v ∈ py_set gs).
  { intros v. rewrite merge_sort_Permutation. by rewrite elem_of_list_filter. }
  split; [|intros v [? ?]%Hm; auto].
  intros v Hv Hg. assert (exists w, w ∈ py_set gs /\ group_eq v w) as (w & Hw & Hvw).
  { apply H2 in Hv as [?|?]; [by exists v|done]. }
  exists w. split; [|done]. apply Hm. split; [|done]. intros ->. apply not_none_group.
  by eapply group_eq_refl_l, group_eq_sym.
Qed.
Lemma unique_group_ok gs : groups_sortable gs -> exists ug, unique_group gs = Ok ug.
Proof.
  intros Hs. unfold unique_group. destruct (py_set_spec gs) as [H1 _].
  assert (forallb is_str (filter (fun v => v <> VNone) (py_set gs)) || forallb is_number (filter (fun v => v <> VNone) (py_set gs)) = true) as ->; [|eauto].
  apply orb_true_iff. destruct Hs as [Hs|Hs]; [left|right]; apply forallb_forall; intros v Hv;
    apply elem_of_list_In, elem_of_list_filter in Hv as [Hn Hv]; destruct (Hs v (H1 v Hv)) as [?|Hx]; try done.
  - by destruct Hx as [? ->].
  - unfold is_number. by destruct Hx as [? ->].
Qed.
Lemma unique_group_err gs :
  (exists v, v ∈ gs /\ v <> VNone /\ ~ exists s, v = VStr s) -> (exists v, v ∈ gs /\ v <> VNone /\ to_num v = None) ->
  unique_group gs = Err TypeError.
Proof.
  intros (v & Hv & Hn & Hns) (w & Hw & Hnw & Hnn). unfold unique_group. destruct (py_set_spec gs) as [H1 H2].
  assert (forallb is_str (filter (fun v => v <> VNone) (py_set gs)) = false) as ->.
  { apply not_true_iff_false. rewrite forallb_forall. intros Hall. 
    destruct (H2 v Hv) as [Hv'|(u & Hu & Huv)].
    - assert (Hx : is_str v = true) by (apply Hall, elem_of_list_In, elem_of_list_filter; done). destruct v; try done. naive_solver.
    - assert (u <> VNone). { intros ->. by eapply not_none_group, group_eq_refl_l, group_eq_sym. }
      assert (Hx : is_str u = true) by (apply Hall, elem_of_list_In, elem_of_list_filter; done). destruct u; try done.
      destruct v; simpl in Huv; naive_solver. }
  assert (forallb is_number (filter (fun v => v <> VNone) (py_set gs)) = false) as ->; [|done].
  apply not_true_iff_false. rewrite forallb_forall. intros Hall. unfold is_number in Hall.
  destruct (H2 w Hw) as [Hw'|(u & Hu & Huw)].
  - assert (Hx : match to_num w with Some _ => true | None => false end = true) by (apply Hall, elem_of_list_In, elem_of_list_filter; done). by rewrite Hnn in Hx.
  - assert (u <> VNone). { intros ->. by eapply not_none_group, group_eq_refl_l, group_eq_sym. }
    assert (Hx : match to_num u with Some _ => true | None => false end = true) by (apply Hall, elem_of_list_In, elem_of_list_filter; done).
    destruct w, u; simpl in *; naive_solver.
Qed.

(** * One lane *)

Lemma members_nil {A} g (xs : list A) : members g [] xs = [].
Proof. done. Qed.
Lemma members_nil_r {A} g gs : members g gs (@nil A) = [].
Proof. by destruct gs. Qed.
Lemma members_cons {A} g h gs (x : A) xs :
  members g (h :: gs) (x :: xs) = if decide (group_eq g h) then x :: members g gs xs else members g gs xs.
Proof. unfold members. simpl zip. rewrite filter_cons. simpl. by case_decide. Qed.
Lemma get_mask_members {A} g gs (xs : list A) : get_mask (same_group g <$> gs) xs = members g gs xs.
Proof.
  revert xs. induction gs as [|h gs IH]; intros [|x xs]; try done.
  rewrite members_cons. cbn [fmap list_fmap get_mask]. rewrite IH.
  destruct (same_group g h) eqn:E; [rewrite decide_True by (by apply same_group_eq)|rewrite decide_False]; try done.
  by rewrite <-same_group_eq, E.
Qed.
Lemma members_length {A B} g gs (xs : list A) (ys : list B) : length xs = length ys -> length (members g gs xs) = length (members g gs ys).
Proof.
  revert xs ys. induction gs as [|h gs IH]; intros [|x xs] [|y ys] H; try done. rewrite !members_cons. injection H as H.
  case_decide; simpl; auto.
Qed.
Lemma members_eq {A} g h gs (xs : list A) : group_eq g h -> members g gs xs = members h gs xs.
Proof.
  intros Hgh. revert xs. induction gs as [|v gs IH]; intros [|x xs]; try done. rewrite !members_cons, IH.
  destruct (decide (group_eq g v)), (decide (group_eq h v)); try done; exfalso; eauto using group_eq_trans, group_eq_sym.
Qed.
Lemma put_mask_length {A} idx (r x : list A) : length (put_mask idx r x) = length x.
Proof. revert r x. induction idx as [|[] idx IH]; intros r [|a x]; simpl; try done; [destruct r|]; simpl; by rewrite IH. Qed.
Lemma put_mask_same {A} g gs (r x : list A) :
  length r = length (members g gs x) -> members g gs (put_mask (same_group g <$> gs) r x) = r.
Proof.
  revert r x. induction gs as [|h gs IH]; intros r [|a x] H;
    [by destruct r..|by cbn [fmap list_fmap put_mask]; destruct (same_group g h), r|].
  rewrite members_cons in H. cbn [fmap list_fmap put_mask].
  destruct (same_group g h) eqn:E.
  - apply same_group_eq in E. rewrite decide_True in H by done. destruct r as [|b r]; [done|]. rewrite members_cons, decide_True by done.
    f_equal. apply IH. simpl in H. lia.
  - apply not_true_iff_false in E. rewrite same_group_eq in E. rewrite decide_False in H by done. rewrite members_cons, decide_False by done. by apply IH.
Qed.
Lemma put_mask_other {A} g h gs (r x : list A) :
  ~ group_eq g h -> members h gs (put_mask (same_group g <$> gs) r x) = members h gs x.
Proof.
  intros Hn. revert r x. induction gs as [|v gs IH]; intros r [|a x]; [done..|by cbn [fmap list_fmap put_mask]; destruct (same_group g v)|]. cbn [fmap list_fmap put_mask].
  destruct (same_group g v) eqn:E.
  - apply same_group_eq in E. assert (~ group_eq h v). { intros H. apply Hn. eapply group_eq_trans; [exact E|by apply group_eq_sym]. }
    destruct r; rewrite !members_cons, !decide_False by done; by rewrite IH.
  - rewrite !members_cons. by rewrite IH.
Qed.
Lemma put_mask_out {A} g gs (r x : list A) k v :
  gs !! k = Some v -> ~ group_eq g v -> put_mask (same_group g <$> gs) r x !! k = x !! k.
Proof.
  revert r x k. induction gs as [|h gs IH]; intros r [|a x] k Hk Hn; [done..|by cbn [fmap list_fmap put_mask]; destruct (same_group g h)|]. cbn [fmap list_fmap put_mask].
  destruct k as [|k].
  - simpl in Hk. injection Hk as ->. rewrite <-same_group_eq in Hn. apply not_true_iff_false in Hn. by rewrite Hn.
  - simpl in Hk. destruct (same_group g h); [destruct r|]; simpl; by apply IH.
Qed.

Lemma group_lane_aux (f : list num -> list num) gs ns dn x ug :
  (forall l, length (f l) = length l) -> length x = length ns ->
  (forall g, group_eq g g -> (exists w, w ∈ dn /\ group_eq g w) -> members g gs x = f (members g gs ns)) ->
  (forall k g, gs !! k = Some g -> k < length ns -> ~ group_eq g g -> x !! k = Some NaN) ->
  let z := fold_left (fun x group => put_mask (same_group group <$> gs) (f (get_mask (same_group group <$> gs) ns)) x) ug x in
  length z = length ns /\
  (forall g, group_eq g g -> (exists w, w ∈ dn ++ ug /\ group_eq g w) -> members g gs z = f (members g gs ns)) /\
  (forall k g, gs !! k = Some g -> k < length ns -> ~ group_eq g g -> z !! k = Some NaN).
Proof.
  intros Hf. revert dn x. induction ug as [|u ug IH]; intros dn x Hx H1 H2; simpl.
  { rewrite app_nil_r. done. }
  replace (dn ++ u :: ug) with ((dn ++ [u]) ++ ug) by (by rewrite <-(assoc_L (++))).
  apply IH.
  - by rewrite put_mask_length.
  - intros g Hg (w & Hw & Hgw). rewrite get_mask_members. destruct (decide (group_eq u g)) as [Hu|Hu].
    + rewrite <-!(members_eq u g) by done. apply put_mask_same. rewrite Hf. by apply members_length.
    + rewrite put_mask_other by done. apply H1; [done|]. exists w. split; [|done].
      apply elem_of_app in Hw as [?|Hw%elem_of_list_singleton]; [done|]. subst w. by destruct Hu; apply group_eq_sym.
  - intros k g Hk Hlt Hn. rewrite (put_mask_out _ _ _ _ _ _ Hk); [by apply (H2 k g)|].
    intros Hu. apply Hn. by eapply group_eq_refl_l, group_eq_sym.
Qed.
Lemma group_lane_spec (R : list num -> list num -> Prop) f gs ug ns :
  (forall l, length (f l) = length l) -> (forall l, l <> [] -> R l (f l)) -> length ns = length gs -> covers gs ug ->
  length (group_lane f gs ug ns) = length ns /\ within_groups R gs ns (group_lane f gs ug ns).
Proof.
  intros Hf HR Hlen Hc. unfold group_lane.
  destruct (group_lane_aux f gs ns [] (replicate (length ns) NaN) ug Hf) as (H0 & H1 & H2).
  - by rewrite replicate_length.
  - intros g _ (w & Hw & _). by apply elem_of_nil in Hw.
  - intros k g _ Hk _. by apply lookup_replicate_2.
  - split; [done|]. split_and!; [done| |].
    + intros g Hg Hgg. rewrite H1; [apply HR|done|by apply Hc].
      intros E. assert (Hl : length (members g gs gs) = 0) by (rewrite (members_length g gs gs ns) by done; by rewrite E).
      apply elem_of_list_lookup in Hg as [k Hk].
      assert (g ∈ members g gs gs) as Hm.
      { unfold members. apply elem_of_list_fmap. exists (g, g). split; [done|]. apply elem_of_list_filter. split; [done|].
        apply elem_of_list_lookup. exists k. by rewrite lookup_zip_with, Hk. }
      destruct (members g gs gs); [by apply elem_of_nil in Hm|done].
    + intros k g Hk Hn. apply (H2 k g Hk); [|done]. rewrite Hlen. by eapply lookup_lt_Some.
Qed.

(** * Alignment of the groups *)

Lemma morph_data_groups group l g :
  valid group -> lndim group = 1 -> (forall gl, llabel group !! 0 = Some gl -> forall x, x ∈ l -> x ∈ gl) ->
  morph group l 0 = Ok g -> groups_of group l (data (larr g)).
Proof.
  intros Hv H1 Hsub Hm. apply morph_spec in Hm as (ax & old & Hax & Hold & Hnd & Hl & Hr & Hd); [|done].
  apply py_axis_is in Hax. assert (ax = 0) as -> by (unfold axis_is in Hax; lia).
  assert (exists gl, llabel group = [gl]) as [gl Egl].
  { rewrite <-(valid_ndim group Hv) in H1. destruct (llabel group) as [|a [|]]; try done. by exists a. }
  rewrite Egl in Hold. injection Hold as ->. rewrite Egl in Hl. simpl in Hl. destruct Hr as (Hvg & _ & _ & Hc).
  assert (Hs : lshape g = [length l]) by (rewrite <-(valid_shape g Hvg), Hl; done).
  assert (Hlen : length (data (larr g)) = length l).
  { pose proof (valid_wf g Hvg) as Hw. unfold arr_wf, asize in Hw. replace (shape (larr g)) with [length l] in Hw by (symmetry; exact Hs). simpl in Hw. lia. }
  apply Forall2_same_length_lookup_2; [done|]. intros i x v Hi Hx.
  assert (Hg : in_grid (llabel g) [x]). { rewrite Hl. constructor; [by eapply elem_of_list_lookup_2|constructor]. }
  assert (Hgi : cell g [x] = Some v).
  { rewrite (cell_at g [i] [x]).
    - unfold aget. replace (shape (larr g)) with [length l] by (symmetry; exact Hs). apply lookup_lt_Some in Hi. rewrite decide_True by (constructor; [lia|constructor]).
      simpl. replace (i * 1 + 0) with i by lia. done.
    - by apply valid_nodup.
    - rewrite Hl. constructor; [done|constructor]. }
  rewrite Hc in Hgi by done. 
  assert (Hin : in_grid (llabel group) [x]).
  { rewrite Egl. constructor; [|constructor]. apply (Hsub old); [by rewrite Egl|by eapply elem_of_list_lookup_2]. }
  apply valid_cell_grid in Hin as [u Hu]; [|done]. rewrite Hu in Hgi.
  assert (Hdt : ldtype g = ldtype group).
  { rewrite Hd. unfold morph_dtype. rewrite decide_True; [done|]. right. split; [by intros ->|].
    apply Forall_forall. intros y Hy. apply (Hsub old); [by rewrite Egl|done]. }
  rewrite Hdt, cast_to_typed in Hgi; [|by eapply valid_cell_typed]. by rewrite Hu.
Qed.

Lemma group_align_ok y group a ax l gs :
  valid y -> valid group -> length (llabel group) = 1 -> axis_is y a ax -> llabel y !! ax = Some l -> groups_of group l gs ->
  group_align y (Some group) a = Ok gs.
Proof.
  intros Hv Hvg H1 Hax Hl Hgs. unfold group_align. rewrite (valid_ndim group Hvg) in H1. rewrite decide_False by lia.
  assert (Hpy : py_axis y a = Ok ax) by (by apply py_axis_is). rewrite Hpy. cbn [mbind res_bind].
  rewrite (proj2 (axis_label_ok y ax l) Hl). cbn [mbind res_bind].
  assert (exists gl, llabel group = [gl]) as [gl Egl].
  { rewrite <-(valid_ndim group Hvg) in H1. destruct (llabel group) as [|b [|]]; try done. by exists b. }
  rewrite (proj2 (axis_label_ok group 0 gl)) by (by rewrite Egl). cbn [mbind res_bind].
  assert (Hsub : forall x, x ∈ l -> x ∈ gl).
  { intros x Hx. apply elem_of_list_lookup in Hx as [i Hi]. destruct (Forall2_lookup_l _ _ _ _ _ Hgs Hi) as (v & _ & Hc).
    assert (Hg : in_grid (llabel group) [x]) by (apply valid_cell_grid; [done|by rewrite Hc]). rewrite Egl in Hg.
    by inversion Hg; subst. }
  assert (forallb (fun x => bool_decide (x ∈ gl)) l = true) as ->.
  { apply forallb_forall. intros x Hx%elem_of_list_In. apply bool_decide_eq_true. auto. }
  destruct (morph_ok group l 0 0) as [g Hg]; [done| | |].
  { apply py_axis_is. unfold axis_is. rewrite Egl. simpl. lia. }
  { exact (Forall_lookup_1 _ _ _ _ (valid_nodup y Hv) Hl). }
  rewrite Hg. cbn [mbind res_bind]. f_equal.
  apply morph_data_groups in Hg; [|done|lia|].
  - clear -Hg Hgs. revert gs Hgs. induction Hg as [|x v l vs Hx H IH]; intros gs Hgs; inversion Hgs; subst; [done|].
    f_equal; [congruence|auto].
  - intros gl'. rewrite Egl. by intros [= <-].
Qed.

Lemma full_amap (y : larry) (v : val) : valid y -> full (lshape y) v = amap (fun _ => v) (larr y).
Proof.
  intros Hv. unfold full, amap. f_equal. pose proof (valid_wf y Hv) as Hw. unfold arr_wf, asize in Hw. 
  change (shape (larr y)) with (lshape y) in Hw. rewrite <-Hw. clear Hw.
  induction (data (larr y)) as [|a l IH]; [done|]. cbn [length replicate fmap list_fmap]. f_equal. exact IH.
Qed.

(** * The methods *)

Theorem larry_group_total (R : list num -> list num -> Prop) f y group a ax l gs :
  (forall l, length (f l) = length l) -> (forall l, l <> [] -> R l (f l)) ->
  valid y -> numeric_larry y -> valid group -> length (llabel group) = 1 -> axis_is y a ax -> llabel y !! ax = Some l ->
  groups_of group l gs -> groups_sortable gs ->
  exists z, larry_group f y (Some group) a = Ok z /\ lanes_related (within_groups R gs) y (Some a) z.
Proof.
  intros Hf HR Hv Hn Hvg H1 Hax Hl Hgs Hs. unfold larry_group.
  rewrite (group_align_ok y group a ax l gs) by done. cbn [mbind res_bind]. unfold np_group.
  destruct (unique_group_ok gs Hs) as [ug Hug]. rewrite Hug. cbn [mbind res_bind].
  apply unique_group_covers in Hug as [Hcov _]. assert (Hlen : length gs = length l) by (symmetry; by eapply Forall2_length).
  assert (Hlanes : exists x, lanewise (group_lane f gs ug) (lx y) (Some ax) = Ok x /\
    lanes_related (within_groups R gs) y (Some a) (Larry x (llabel y))).
  { apply lanewise_spec; [|done..]. intros ns (l' & Hl' & Hln). simplify_eq. apply group_lane_spec; try done. lia. }
  destruct Hlanes as (x & Hx & Hrel).
  assert (Hp : of_opt IndexError (py_index (nd_ndim (lx y)) a) = Ok ax).
  { change (nd_ndim (lx y)) with (lndim y). by rewrite (proj1 (axis_is_py y a ax Hv) Hax). }
  destruct ug as [|u ug].
  - eexists. split; [done|]. change (nd_shape (lx y)) with (lshape y). rewrite full_amap by done.
    assert (Hx' : lanes_related (within_groups R gs) y (Some a) (Larry (Nda DFloat (amap (fun _ => VFloat NaN) (larr y))) (llabel y))); [|exact Hx'].
    destruct Hrel as (Hvz & Hd & Hlz & ax' & Hax' & Hz). destruct (map_valid y DFloat (fun _ => VFloat NaN) Hv) as [Hvm Hcm]; [done|].
    split_and!; [done..|]. exists ax'. split; [done|]. intros ls Hg. destruct (Hz ls Hg) as (vs & ns & ms & Hvs & Hns & Hms & Hw).
    assert (ax' = ax) as -> by (unfold axis_is in *; lia).
    exists vs, ns, (replicate (length ns) NaN). split_and!; [done|done| |].
    + destruct Hvs as (l' & Hl' & Hvs). exists l'. split; [done|].
      assert (Hlv : length l' = length ns) by (rewrite (numbers_length _ _ Hns); by eapply Forall2_length).
      rewrite <-Hlv. clear -Hvs Hcm. induction Hvs as [|x v l' vs Hxv H IH]; [constructor|]. simpl. constructor; [|done].
      rewrite Hcm, Hxv. done.
    + split_and!; [by rewrite replicate_length| |].
      * intros g Hg' Hgg. destruct (Hcov g Hg' Hgg) as (w & Hw' & _). by apply elem_of_nil in Hw'.
      * intros k g Hk _. apply lookup_replicate_2. apply lookup_lt_Some in Hk. 
        assert (length l = length ns). { rewrite (numbers_length _ _ Hns). symmetry. by eapply lane_of_length. } lia.
  - rewrite Hp. cbn [mbind res_bind]. rewrite Hx. cbn [mbind res_bind]. by eexists.
Qed.
Lemma gmean_spec ns : all_mean ns (gmean_lane ns).
Proof.
  unfold all_mean, gmean_lane. f_equal. fold (present ns).
  assert (filter (fun n => is_nan n = false) ns = present ns) as ->.
  { unfold present. apply list_filter_iff. intros []; simpl; naive_solver. }
  destruct (decide (present ns = [])) as [-> |Hp]; [done|].
  pose proof (float_red_spec RSum (present ns)) as H. simpl in H. rewrite H; try done. apply present_no_nan.
Qed.
Lemma gmedian_spec ns : all_median ns (gmedian_lane ns).
Proof.
  unfold all_median, gmedian_lane. fold (present ns). eexists. split; [|done]. unfold median_or_nan.
  destruct (decide (present ns = [])) as [-> |Hp]; [done|]. apply (float_red_spec RMedian); try done. apply present_no_nan.
Qed.
Theorem group_mean_total y group a ax l gs :
  valid y -> numeric_larry y -> valid group -> length (llabel group) = 1 -> axis_is y a ax -> llabel y !! ax = Some l ->
  groups_of group l gs -> groups_sortable gs ->
  exists z, larry_group_mean y (Some group) a = Ok z /\ lanes_related (within_groups all_mean gs) y (Some a) z.
Proof. apply larry_group_total; [intros; apply replicate_length|intros; apply gmean_spec]. Qed.
Theorem group_median_total y group a ax l gs :
  valid y -> numeric_larry y -> valid group -> length (llabel group) = 1 -> axis_is y a ax -> llabel y !! ax = Some l ->
  groups_of group l gs -> groups_sortable gs ->
  exists z, larry_group_median y (Some group) a = Ok z /\ lanes_related (within_groups all_median gs) y (Some a) z.
Proof. apply larry_group_total; [intros; apply replicate_length|intros; apply gmedian_spec]. Qed.
Theorem group_ranking_total y group a ax l gs :
  valid y -> numeric_larry y -> valid group -> length (llabel group) = 1 -> axis_is y a ax -> llabel y !! ax = Some l ->
  groups_of group l gs -> groups_sortable gs ->
  exists z, larry_group_ranking y (Some group) a = Ok z /\ lanes_related (within_groups ranked gs) y (Some a) z.
Proof. apply larry_group_total; [intros; apply ranking_lane_length|intros; apply ranking_one]. Qed.

(** Only the cells of the group larry matter, not their order. *)
Theorem group_by_label f y g1 g2 a ax l :
  valid y -> valid g1 -> valid g2 -> length (llabel g1) = 1 -> length (llabel g2) = 1 ->
  axis_is y a ax -> llabel y !! ax = Some l ->
  (forall x, x ∈ l -> exists v, cell g1 [x] = Some v /\ cell g2 [x] = Some v) ->
  larry_group f y (Some g1) a = larry_group f y (Some g2) a.
Proof.
  intros Hv Hv1 Hv2 H1 H2 Hax Hl Hc.
  assert (exists gs, groups_of g1 l gs /\ groups_of g2 l gs) as (gs & Hg1 & Hg2).
  { clear Hl. induction l as [|x l IH]; [exists []; split; constructor|].
    destruct IH as (gs & G1 & G2); [intros; apply Hc; by right|]. destruct (Hc x) as (v & Hc1 & Hc2); [by left|].
    exists (v :: gs). split; by constructor. }
  unfold larry_group. by rewrite (group_align_ok y g1 a ax l gs), (group_align_ok y g2 a ax l gs).
Qed.
Theorem group_error f y group a :
  valid y ->
  larry_group f y None a = Err TypeError /\
  (valid group -> length (llabel group) <> 1 -> larry_group f y (Some group) a = Err ValueError) /\
  (valid group -> length (llabel group) = 1 ->
     ((forall ax, ~ axis_is y a ax) -> larry_group f y (Some group) a = Err IndexError) /\
     (forall ax l, axis_is y a ax -> llabel y !! ax = Some l ->
        ((exists x, x ∈ l /\ cell group [x] = None) -> larry_group f y (Some group) a = Err IndexError) /\
        (forall gs, groups_of group l gs ->
           (exists v, v ∈ gs /\ v <> VNone /\ ~ exists s, v = VStr s) -> (exists v, v ∈ gs /\ v <> VNone /\ to_num v = None) ->
           larry_group f y (Some group) a = Err TypeError))).
Proof.
  intros Hv. unfold larry_group, group_align. split; [done|]. split.
  { intros Hvg Hnd. rewrite decide_True by (rewrite <-(valid_ndim group Hvg); done). done. }
  intros Hvg H1. pose proof H1 as Hnd1. rewrite (valid_ndim group Hvg) in Hnd1. split.
  - intros Hno. rewrite decide_False by lia. destruct (py_axis y a) as [ax|e] eqn:E; [by destruct (Hno ax); apply py_axis_is|].
    by rewrite (py_axis_err _ _ _ E).
  - intros ax l Hax Hl. split.
    + intros (x & Hx & Hc). rewrite decide_False by lia.
      assert (Hpy : py_axis y a = Ok ax) by (by apply py_axis_is). rewrite Hpy. cbn [mbind res_bind].
      rewrite (proj2 (axis_label_ok y ax l) Hl). cbn [mbind res_bind].
      destruct (llabel group) as [|gl [|]] eqn:Egl; try done.
      rewrite (proj2 (axis_label_ok group 0 gl)) by (by rewrite Egl). cbn [mbind res_bind].
      assert (forallb (fun x => bool_decide (x ∈ gl)) l = false) as ->; [|done].
      apply not_true_iff_false. rewrite forallb_forall. intros H. specialize (H x (proj1 (elem_of_list_In _ _) Hx)).
      apply bool_decide_eq_true in H. assert (is_Some (cell group [x])) as [? E].
      { apply valid_cell_grid; [done|]. rewrite Egl. constructor; [done|constructor]. } congruence.
    + intros gs Hgs Hs1 Hs2. fold (group_align y (Some group) a). rewrite (group_align_ok y group a ax l gs) by done. cbn [mbind res_bind].
      unfold np_group. by rewrite unique_group_err.
Qed.

Definition group_methods : list (larry -> option larry -> Z -> res larry) :=
  [larry_group_mean; larry_group_median; larry_group_ranking].
Lemma group_methods_inv m : m ∈ group_methods -> exists f, m = larry_group f.
Proof. unfold group_methods. intros [-> |[-> |[-> |[]%elem_of_nil]%elem_of_cons]%elem_of_cons]%elem_of_cons; by eexists. Qed.
Theorem groups_by_label m y g1 g2 a ax l :
  m ∈ group_methods -> valid y -> valid g1 -> valid g2 -> length (llabel g1) = 1 -> length (llabel g2) = 1 ->
  axis_is y a ax -> llabel y !! ax = Some l ->
  (forall x, x ∈ l -> exists v, cell g1 [x] = Some v /\ cell g2 [x] = Some v) ->
  m y (Some g1) a = m y (Some g2) a.
Proof. intros [f ->]%group_methods_inv. apply group_by_label. Qed.
Theorem groups_error m y group a :
  m ∈ group_methods -> valid y ->
  m y None a = Err TypeError /\
  (valid group -> length (llabel group) <> 1 -> m y (Some group) a = Err ValueError) /\
  (valid group -> length (llabel group) = 1 ->
     ((forall ax, ~ axis_is y a ax) -> m y (Some group) a = Err IndexError) /\
     (forall ax l, axis_is y a ax -> llabel y !! ax = Some l ->
        ((exists x, x ∈ l /\ cell group [x] = None) -> m y (Some group) a = Err IndexError) /\
        (forall gs, groups_of group l gs ->
           (exists v, v ∈ gs /\ v <> VNone /\ ~ exists s, v = VStr s) -> (exists v, v ∈ gs /\ v <> VNone /\ to_num v = None) ->
           m y (Some group) a = Err TypeError))).
Proof. intros [f ->]%group_methods_inv. apply group_error. Qed.
