(** Properties of the alignment functions. *)
From Verif Require Export Align LarryMove.

Lemma missing_marker_mark dt v : missing_marker dt = Some v -> v = missing_mark dt /\ missing_dtype dt = dt.
Proof. by destruct dt; intros [= <-]. Qed.
Lemma missing_marker_None dt : missing_marker dt = None -> missing_dtype dt = DFloat.
Proof. by destruct dt. Qed.
Lemma cast_to_typed dt v : has_dtype dt v = true -> cast_to dt v = v.
Proof. destruct dt, v; try done. Qed.
Lemma cast_to_has_dtype dt v : has_dtype dt v = true -> has_dtype (missing_dtype dt) (cast_to (missing_dtype dt) v) = true.
Proof. destruct dt, v; try done. Qed.
Lemma missing_mark_has_dtype dt : has_dtype (missing_dtype dt) (missing_mark (missing_dtype dt)) = true.
Proof. by destruct dt. Qed.
Lemma missing_dtype_idemp dt : missing_dtype (missing_dtype dt) = missing_dtype dt.
Proof. by destruct dt. Qed.
Lemma cast_to_twice dt v : cast_to dt (cast_to dt v) = cast_to dt v.
Proof. by destruct dt, v. Qed.

Lemma realigned_refl y : valid y -> realigned y y.
Proof.
  intros Hv. split_and!; [done|by left|done|]. intros ls Hg.
  apply valid_cell_grid in Hg as [v Hc]; [|done]. rewrite Hc.
  by rewrite cast_to_typed by (by eapply valid_cell_typed).
Qed.

(** Two moves compose if no cell is dropped by the first and wanted back by
    the second. *)
Lemma realigned_trans y z w :
  valid y -> realigned y z -> realigned z w ->
  (forall ls, in_grid (llabel y) ls -> in_grid (llabel w) ls -> in_grid (llabel z) ls) ->
  realigned y w.
Proof.
  intros Hv (Hvz & Hd1 & Hm1 & Hc1) (Hvw & Hd2 & Hm2 & Hc2) Hg.
  assert (Hd : ldtype w = ldtype y \/ ldtype w = missing_dtype (ldtype y)).
  { destruct Hd2 as [->| ->]; [done|]. right. destruct Hd1 as [->| ->]; [done|]. apply missing_dtype_idemp. }
  split_and!; [done|done| |].
  - intros ls Hw Hy. destruct (decide (in_grid (llabel z) ls)) as [Hz|Hz].
    + specialize (Hm1 ls Hz Hy). destruct Hd2 as [->| ->]; [done|]. rewrite Hm1. apply missing_dtype_idemp.
    + rewrite (Hm2 ls Hw Hz). destruct Hd1 as [->| ->]; [done|]. apply missing_dtype_idemp.
  - intros ls Hw. rewrite (Hc2 ls Hw). f_equal.
    destruct (decide (in_grid (llabel z) ls)) as [Hz|Hz].
    + rewrite (Hc1 ls Hz). destruct (cell y ls) as [v|] eqn:Hcy.
      * assert (has_dtype (ldtype y) v = true) by (by eapply valid_cell_typed).
        revert Hd1 Hd2. clear -H. destruct (ldtype y), v; simpl in *; intros [->| ->] [->| ->]; simpl; try done.
      * apply cell_None_grid in Hcy; [|done]. pose proof (Hm1 ls Hz Hcy) as E.
        destruct Hd2 as [->| ->]; rewrite E, ?missing_dtype_idemp;
          (rewrite cast_to_typed; [done|apply missing_mark_has_dtype]).
    + assert (cell z ls = None) as -> by (by apply cell_None_grid).
      assert (cell y ls = None) as ->. { apply cell_None_grid; [done|]. eauto. }
      done.
Qed.

Lemma in_grid_insert L ax (new : list lab) ls :
  in_grid (<[ax := new]> L) ls -> forall l, ls !! ax = Some l -> l ∈ new.
Proof.
  intros Hg l Hl. assert (Hlen := Forall2_length _ _ _ Hg). rewrite insert_length in Hlen.
  assert (Hlt : ax < length L). { apply lookup_lt_Some in Hl. lia. }
  eapply (Forall2_lookup_lr _ _ _ ax l new); [exact Hg|done|]. by apply list_lookup_insert.
Qed.
Lemma in_grid_insert_inv L ax (old new : list lab) ls :
  L !! ax = Some old -> in_grid (<[ax := new]> L) ls -> (forall l, ls !! ax = Some l -> l ∈ old) -> in_grid L ls.
Proof.
  intros Hold Hg Hl. apply Forall2_same_length_lookup_2.
  { apply Forall2_length in Hg. by rewrite insert_length in Hg. }
  intros i x axis Hx Haxis. destruct (decide (i = ax)) as [->|].
  - simplify_eq. auto.
  - eapply (Forall2_lookup_lr _ _ _ i x axis); [exact Hg|done|]. by rewrite list_lookup_insert_ne.
Qed.
Lemma in_grid_lookup L ls ax (axis : list lab) : in_grid L ls -> L !! ax = Some axis -> exists l, ls !! ax = Some l /\ l ∈ axis.
Proof. intros Hg Hax. by eapply Forall2_lookup_r in Hg. Qed.
Lemma in_grid_alt L ls :
  in_grid L ls <-> length ls = length L /\ forall ax l (axis : list lab), ls !! ax = Some l -> L !! ax = Some axis -> l ∈ axis.
Proof.
  split.
  - intros Hg. split; [by eapply Forall2_length|]. intros ax l axis Hl Hax. by eapply (Forall2_lookup_lr _ _ _ ax l axis).
  - intros [Hlen Hg]. apply Forall2_same_length_lookup_2; [done|]. eauto.
Qed.

(** Criterion for moving one axis to another label list. *)
Lemma realign_axis y z ax (old new : list lab) :
  valid y -> llabel y !! ax = Some old -> NoDup new ->
  llabel z = <[ax := new]> (llabel y) -> arr_wf (larr z) -> lshape z = <[ax := length new]> (lshape y) ->
  (ldtype z = ldtype y \/ ldtype z = missing_dtype (ldtype y)) ->
  (forall l, l ∈ new -> l ∉ old -> ldtype z = missing_dtype (ldtype y)) ->
  (forall idx k l, in_range (lshape z) idx -> idx !! ax = Some k -> new !! k = Some l ->
     aget (larr z) idx = match index_of l old with
                         | Some i => cast_to (ldtype z) <$> aget (larr y) (<[ax := i]> idx)
                         | None => Some (missing_mark (ldtype z))
                         end) ->
  realigned y z.
Proof.
  intros Hv Hold Hnd Hlab Hwf Hsh Hdt Hmiss Hget.
  assert (Hlt : ax < length (llabel y)) by (by eapply lookup_lt_Some).
  assert (Hndold : NoDup old) by exact (Forall_lookup_1 _ _ _ _ (valid_nodup y Hv) Hold).
  assert (Hlsh : length <$> llabel z = lshape z).
  { by rewrite Hlab, Hsh, fmap_length_insert, (valid_shape y Hv). }
  assert (Hpick : forall l : lab,
    (exists i, index_of l old = Some i /\ (l ∈ old)) \/ (index_of l old = None /\ l ∉ old)).
  { intros l. destruct (index_of l old) as [i|] eqn:E.
    - left. exists i. split; [done|]. apply index_of_is_Some. by rewrite E.
    - right. split; [done|]. by apply index_of_None. }
  assert (Hvz : valid z).
  { split_and!.
    - apply nda_wf_get; [done|]. intros idx v Hg. change (nd_arr (lx z)) with (larr z) in Hg.
      assert (Hr : in_range (lshape z) idx) by (by eapply get_in_range).
      assert (exists k, idx !! ax = Some k /\ k < length new) as (k & Hk & Hklt).
      { assert (Hlen := in_range_length _ _ Hr).
        assert (Hax : ax < length (lshape z)) by (rewrite <-Hlsh, fmap_length, Hlab, insert_length; done).
        destruct (lookup_lt_is_Some_2 idx ax) as [k Hk]; [lia|]. exists k. split; [done|].
        eapply in_range_lookup; [exact Hr| |exact Hk]. rewrite Hsh. apply list_lookup_insert.
        rewrite <-(valid_shape y Hv), fmap_length. done. }
      destruct (lookup_lt_is_Some_2 new k Hklt) as [l Hl].
      rewrite (Hget idx k l Hr Hk Hl) in Hg.
      destruct (Hpick l) as [(i & Hi & _)|(Hi & Hno)]; rewrite Hi in Hg.
      + apply fmap_Some in Hg as (u & Hu & ->).
        assert (has_dtype (ldtype y) u = true). { eapply (nda_wf_typed (lx y)); [by destruct Hv|exact Hu]. }
        change (has_dtype (ldtype z) (cast_to (ldtype z) u) = true).
        destruct Hdt as [->| ->]; [by rewrite cast_to_typed|by apply cast_to_has_dtype].
      + injection Hg as <-. change (has_dtype (ldtype z) (missing_mark (ldtype z)) = true).
        rewrite (Hmiss l); [apply missing_mark_has_dtype|by eapply elem_of_list_lookup_2|done].
    - rewrite Hlab. intros HH. apply (f_equal length) in HH. rewrite insert_length in HH. simpl in HH. lia.
    - done.
    - rewrite Hlab. apply Forall_nodup_insert; [by apply valid_nodup|done]. }
  split_and!; [done|done| |].
  - intros ls Hz Hy. rewrite Hlab in Hz.
    destruct (in_grid_lookup _ _ ax new Hz) as (l & Hl & Hlnew); [by apply list_lookup_insert|].
    destruct (decide (l ∈ old)) as [Hin|]; [|by eapply Hmiss].
    destruct Hy. eapply in_grid_insert_inv; [done|done|]. intros l' ?. by simplify_eq.
  - intros ls Hz. destruct (proj1 (in_grid_labels_at _ _) Hz) as [idx Hidx].
    assert (Hr : in_range (lshape z) idx). { rewrite <-Hlsh. by eapply labels_at_in_range. }
    rewrite (cell_at z idx ls) by (by (apply valid_nodup || done)).
    destruct (labels_at_lookup_is_Some _ _ _ ax new Hidx) as (k & l & Hk & Hls & Hkl).
    { rewrite Hlab. by apply list_lookup_insert. }
    rewrite (Hget idx k l Hr Hk Hkl).
    destruct (Hpick l) as [(i & Hi & Hin)|(Hi & Hno)]; rewrite Hi.
    + assert (Hat : labels_at (llabel y) (<[ax := i]> idx) ls).
      { rewrite <-(list_insert_id (llabel y) ax old) by done.
        rewrite <-(list_insert_insert (llabel y) ax old new), <-Hlab.
        rewrite <-(list_insert_id ls ax l) by done.
        apply labels_at_insert; [done|]. by apply index_of_Some in Hi as [? _]. }
      destruct (valid_cell_at y _ _ Hv Hat) as (v & -> & ->). done.
    + assert (cell y ls = None) as ->; [|done].
      apply cell_None_grid; [done|]. intros Hg.
      destruct (in_grid_lookup _ _ ax old Hg Hold) as (l' & Hl' & ?). by simplify_eq.
Qed.

(** Taking along an axis with the indices of [listmap_fill]. *)
Lemma fill_take x ax (old new : list lab) idx miss x' :
  NoDup old -> shape (nd_arr x) !! ax = Some (length old) -> listmap_fill old new 0 = (idx, miss) ->
  nda_take x idx ax = Ok x' ->
  nd_dtype x' = nd_dtype x /\ nd_shape x' = <[ax := length new]> (nd_shape x) /\ arr_wf (nd_arr x') /\
  forall ix k l i, in_range (nd_shape x') ix -> ix !! ax = Some k -> new !! k = Some l ->
    index_of l old = Some i -> aget (nd_arr x') ix = aget (nd_arr x) (<[ax := i]> ix).
Proof.
  intros Hnd Hsh Hlm Ht. apply listmap_fill_spec in Hlm as (Hlen & Hhit & _).
  unfold nda_take in Ht. apply bind_ok in Ht as (b & Hb & [= <-]). unfold np_take in Hb.
  apply bind_ok in Hb as (n & Hn & Hb). apply of_opt_ok in Hn. unfold axlen in Hn. simplify_eq.
  apply bind_ok in Hb as (ps & Hps & Hb). apply of_opt_ok in Hps, Hb.
  assert (Hlps : length ps = length new). { apply mapM_length in Hps. lia. }
  apply take_pos_Some in Hb as (n & _ & _ & Hs & Hw & Hget). simpl. unfold nd_shape. simpl.
  rewrite Hs, Hlps. split_and!; [done|done|done|].
  intros ix k l i Hr Hk Hl Hi. apply (Hget ix k i); [by rewrite Hs, Hlps|done|].
  assert (Hin : l ∈ old) by (apply index_of_is_Some; by rewrite Hi).
  destruct (Hhit k l Hl Hin) as (p & Hp & Hop).
  rewrite (mapM_lookup _ _ _ _ _ Hps Hp). rewrite py_index_nat by (by eapply lookup_lt_Some).
  f_equal. apply index_of_Some in Hi as [Hi _]. by eapply NoDup_lookup.
Qed.
Lemma fill_take_ex x ax (old new : list lab) idx miss :
  arr_wf (nd_arr x) -> shape (nd_arr x) !! ax = Some (length old) -> listmap_fill old new 0 = (idx, miss) ->
  old <> [] \/ miss = [] -> exists x', nda_take x idx ax = Ok x'.
Proof.
  intros Hwf Hsh Hlm Hor. apply listmap_fill_spec in Hlm as (Hlen & Hhit & Hfill & _ & Hmiss).
  assert (Hall : forall z, z ∈ idx -> exists i, py_index (length old) z = Some i).
  { intros z [k Hk]%elem_of_list_lookup.
    destruct (lookup_lt_is_Some_2 new k) as [l Hl]. { rewrite <-Hlen. by eapply lookup_lt_Some. }
    destruct (decide (l ∈ old)) as [Hin|Hno].
    - destruct (Hhit k l Hl Hin) as (p & Hp & Hop). simplify_eq. exists p. apply py_index_nat. by eapply lookup_lt_Some.
    - rewrite (Hfill k l Hl Hno) in Hk. injection Hk as <-. destruct Hor as [Hne|Hm].
      + exists 0. apply (py_index_nat _ 0). destruct old; [done|simpl; lia].
      + exfalso. assert (k ∈ miss) as HH by (apply Hmiss; eauto). rewrite Hm in HH. by apply elem_of_nil in HH. }
  unfold nda_take, np_take, axlen. rewrite Hsh. simpl.
  destruct (mapM (py_index (length old)) idx) as [ps|] eqn:E.
  - simpl. destruct (take_pos_ex (nd_arr x) ps ax (length old)) as [b Hb]; [done|done| |].
    + apply Forall_forall. intros i [k Hk]%elem_of_list_lookup.
      apply mapM_Some in E. eapply Forall2_lookup_r in E as (z & _ & Hz); [|done]. by eapply py_index_lt.
    + rewrite Hb. simpl. eauto.
  - exfalso. apply mapM_None in E. apply Exists_exists in E as (z & Hz & Hn).
    destruct (Hall z Hz) as [i ?]. congruence.
Qed.

Lemma put_axis_ok x ids ax v x' :
  arr_wf (nd_arr x) -> put_axis x ids ax v = Ok x' ->
  nd_dtype x' = nd_dtype x /\ nd_shape x' = nd_shape x /\ arr_wf (nd_arr x') /\
  exists v', store (nd_dtype x) v = Ok v' /\
  forall ix k, in_range (nd_shape x) ix -> ix !! ax = Some k ->
    aget (nd_arr x') ix = if decide (k ∈ ids) then Some v' else aget (nd_arr x) ix.
Proof.
  intros Hwf. unfold put_axis. rewrite bind_ok. intros (n & Hn & H). apply of_opt_ok in Hn. case_decide; [|done].
  apply bind_ok in H as (v' & Hv' & H). apply bind_ok in H as (b & Hb & [= <-]). apply of_opt_ok in Hb. simpl.
  apply build_Some in Hb as (Hs & Hw & Hg). split_and!; [done|exact Hs|exact Hw|].
  exists v'. split; [done|]. intros ix k Hr Hk. rewrite Hg, Hk by done. done.
Qed.
Lemma put_axis_ex x ids ax v v' n :
  arr_wf (nd_arr x) -> shape (nd_arr x) !! ax = Some n -> Forall (fun i => i < n) ids ->
  store (nd_dtype x) v = Ok v' -> exists x', put_axis x ids ax v = Ok x'.
Proof.
  intros Hwf Hn Hids Hv. unfold put_axis, axlen. rewrite Hn. simpl. rewrite decide_True by done.
  rewrite Hv. simpl.
  match goal with |- exists _, (b ← of_opt _ ?B; _) = _ => assert (is_Some B) as [b Hb] end.
  { apply build_is_Some. intros ix Hr. destruct (lookup_lt_is_Some_2 ix ax) as [k Hk].
    { rewrite (in_range_length _ _ Hr). by eapply lookup_lt_Some. }
    rewrite Hk. simpl. case_decide; [done|]. by apply get_is_Some. }
  rewrite Hb. simpl. eauto.
Qed.
Lemma store_mark dt : store (missing_dtype dt) (missing_mark (missing_dtype dt)) = Ok (missing_mark (missing_dtype dt)).
Proof. by destruct dt. Qed.

(** The two ways missing positions are filled: the marker of the dtype, after
    turning int and bool into float. *)
Definition to_missing (x : nda) : nda :=
  match missing_marker (nd_dtype x) with None => astype_float x | Some _ => x end.
Lemma to_missing_dtype x : nd_dtype (to_missing x) = missing_dtype (nd_dtype x).
Proof. unfold to_missing. by destruct x as [[] a]. Qed.
Lemma to_missing_shape x : nd_shape (to_missing x) = nd_shape x.
Proof. unfold to_missing. by destruct x as [[] a]. Qed.
Lemma to_missing_wf x : arr_wf (nd_arr x) -> arr_wf (nd_arr (to_missing x)).
Proof. unfold to_missing. destruct x as [[] a]; simpl; try done; apply amap_wf. Qed.
Lemma to_missing_get x ix :
  nda_wf x -> aget (nd_arr (to_missing x)) ix = cast_to (missing_dtype (nd_dtype x)) <$> aget (nd_arr x) ix.
Proof.
  intros Hwf. unfold to_missing. destruct x as [dt a]. simpl.
  destruct dt; simpl; rewrite ?get_amap; try done.
  - destruct (aget a ix) as [v|] eqn:E; [|done]. simpl.
    apply (nda_wf_typed _ _ _ Hwf) in E. simpl in E. by destruct v.
  - by rewrite option_fmap_id.
  - by rewrite option_fmap_id.
Qed.

(** Moving axis [ax] of [y] to label [new], filling from the first slice. *)
Lemma refill_realigned y ax old new idx miss x x' :
  valid y -> llabel y !! ax = Some old -> NoDup new -> listmap_fill old new 0 = (idx, miss) ->
  nda_take (lx y) idx ax = Ok x ->
  match miss with
  | [] => x' = x
  | _ => put_axis (to_missing x) miss ax (missing_mark (missing_dtype (ldtype y))) = Ok x'
  end ->
  realigned y (Larry x' (<[ax := new]> (llabel y))) /\
  nd_dtype x' = (if decide (miss = []) then ldtype y else missing_dtype (ldtype y)).
Proof.
  intros Hv Hold Hnd Hlm Ht Hput.
  assert (Hndold : NoDup old) by exact (Forall_lookup_1 _ _ _ _ (valid_nodup y Hv) Hold).
  assert (Hax : lshape y !! ax = Some (length old)).
  { rewrite <-(valid_shape y Hv), list_lookup_fmap, Hold. done. }
  destruct (fill_take _ _ _ _ _ _ _ Hndold Hax Hlm Ht) as (Hd & Hs & Hw & Hg).
  pose proof (listmap_fill_spec _ _ _ _ _ Hlm) as (_ & _ & _ & _ & Hmiss).
  change (nd_dtype (lx y)) with (ldtype y) in Hd. change (nd_shape (lx y)) with (lshape y) in Hs.
  assert (Hwx : nda_wf x).
  { apply nda_wf_get; [done|]. intros ix v Hix. unfold nda_take in Ht.
    apply bind_ok in Ht as (b & Hb & [= <-]). simpl in *. unfold np_take in Hb.
    apply bind_ok in Hb as (n & Hn & Hb). apply bind_ok in Hb as (ps & Hps & Hb). apply of_opt_ok in Hb.
    unfold take_pos in Hb. apply bind_Some in Hb as (n' & _ & Hb). case_decide; [|done].
    eapply (nda_wf_typed (Nda (ldtype y) b)); [|exact Hix].
    eapply gather_nda_wf; [|exact Hb]. by destruct Hv as [Hwf _]. }
  destruct (decide (miss = [])) as [->|Hne].
  - subst x'. split; [|done].
    eapply (realign_axis y _ ax old new); simpl; try done.
    + by left.
    + intros l Hl Hno. apply elem_of_list_lookup in Hl as [k Hk].
      assert (k ∈ []) as HH by (apply Hmiss; eauto). by apply elem_of_nil in HH.
    + intros ix k l Hr Hk Hl. unfold larr at 1. simpl.
      destruct (index_of l old) as [i|] eqn:Hi.
      * rewrite (Hg ix k l i); [|done..]. unfold ldtype at 1. simpl. rewrite Hd.
        change (nd_arr (lx y)) with (larr y).
        destruct (aget (larr y) (<[ax:=i]> ix)) as [v|] eqn:E; [|done]. simpl.
        rewrite cast_to_typed; [done|]. eapply (nda_wf_typed (lx y)); [by destruct Hv|exact E].
      * exfalso. apply index_of_None in Hi. assert (k ∈ []) as HH by (apply Hmiss; eauto). by apply elem_of_nil in HH.
  - destruct miss as [|m0 miss]; [done|]. set (ms := m0 :: miss) in *.
    apply put_axis_ok in Hput; [|by apply to_missing_wf].
    destruct Hput as (Hd' & Hs' & Hw' & v' & Hst & Hg').
    rewrite to_missing_dtype, Hd in Hd', Hst. rewrite store_mark in Hst. injection Hst as <-.
    rewrite to_missing_shape in Hs', Hg'. split; [|done].
    eapply (realign_axis y _ ax old new); simpl; try done.
    + unfold lshape. simpl. by rewrite Hs'.
    + right. done.
    + intros ix k l Hr Hk Hl. unfold larr at 1. unfold lshape in Hr. simpl in *. unfold ldtype. simpl. rewrite Hd'.
      rewrite Hs' in Hr. rewrite (Hg' ix k Hr Hk).
      destruct (index_of l old) as [i|] eqn:Hi.
      * rewrite decide_False.
        2:{ intros (l' & Hl' & Hno)%Hmiss. simplify_eq. apply Hno. apply index_of_is_Some. by rewrite Hi. }
        rewrite to_missing_get by done. rewrite (Hg ix k l i); [|done..]. by rewrite Hd.
      * apply index_of_None in Hi. rewrite decide_True; [done|]. apply Hmiss. eauto.
Qed.

Lemma nans_mark sh dt : nans sh (missing_dtype dt) = Ok (Nda (missing_dtype dt) (full sh (missing_mark (missing_dtype dt)))).
Proof. by destruct dt. Qed.
Lemma marker_dtype dt : match missing_marker dt with None => DFloat | Some _ => dt end = missing_dtype dt.
Proof. by destruct dt. Qed.
Lemma miss_all (old new : list lab) idx miss :
  listmap_fill old new 0 = (idx, miss) -> length idx = length miss -> forall l, l ∈ new -> l ∉ old.
Proof.
  intros Hlm Hlen. apply listmap_fill_spec in Hlm as (Hl & _ & _ & Hs & Hm).
  intros l [k Hk]%elem_of_list_lookup.
  assert (Hsub : k ∈ miss).
  { assert (NoDup miss). { clear -Hs. induction Hs as [|a l ? IH HF]; constructor; [|done].
      intros Ha. rewrite Forall_forall in HF. specialize (HF a Ha). lia. }
    assert (Hperm : miss ≡ₚ seq 0 (length new)).
    { apply submseteq_Permutation_length_le.
      - rewrite seq_length. lia.
      - apply NoDup_submseteq; [done|]. intros i (x & Hx & _)%Hm. apply elem_of_seq. apply lookup_lt_Some in Hx. lia. }
    rewrite Hperm. apply elem_of_seq. apply lookup_lt_Some in Hk. lia. }
  apply Hm in Hsub as (x & Hx & Hno). by simplify_eq.
Qed.

(** The dtype morph produces. *)
Definition morph_dtype (dt : dtype) (old new : list lab) : dtype :=
  if decide (new = old \/ new <> [] /\ Forall (fun l => l ∈ old) new) then dt else missing_dtype dt.

Lemma morph_spec y label axis z :
  valid y -> morph y label axis = Ok z ->
  exists ax old, py_axis y axis = Ok ax /\ llabel y !! ax = Some old /\
  NoDup label /\ llabel z = <[ax := label]> (llabel y) /\ realigned y z /\
  ldtype z = morph_dtype (ldtype y) old label.
Proof.
  intros Hv. unfold morph. case_decide; [done|]. rewrite bind_ok. intros (ax & Hax & Hm).
  apply bind_ok in Hm as (old & Hold & Hm). exists ax, old. apply axis_label_ok in Hold.
  split; [done|]. split; [done|].
  assert (Hndold : NoDup old) by exact (Forall_lookup_1 _ _ _ _ (valid_nodup y Hv) Hold).
  unfold morph_dtype.
  case_decide as Heq.
  - injection Hm as <-. subst label. unfold larry_copy. split_and!; [done| |by apply realigned_refl|].
    + by rewrite list_insert_id.
    + by rewrite decide_True by auto.
  - destruct (listmap_fill old label 0) as [idx miss] eqn:Hlm.
    apply bind_ok in Hm as (x & Hx & Hm). destruct (py_nodup label) eqn:Hnd; [|done]. injection Hm as <-.
    apply py_nodup_spec in Hnd. split; [done|]. split; [done|]. simpl.
    destruct (decide (length idx = length miss)) as [Hlen|Hlen].
    + rewrite marker_dtype, nans_mark in Hx. injection Hx as <-.
      pose proof (miss_all _ _ _ _ Hlm Hlen) as Hall.
      split.
      * eapply (realign_axis y _ ax old label); simpl; try done.
        -- apply full_wf.
        -- unfold lshape at 1. unfold nd_shape. simpl. by rewrite (proj1 (listmap_fill_spec _ _ _ _ _ Hlm)).
        -- by right.
        -- intros ix k l Hr Hk Hl. unfold larr at 1. simpl. rewrite get_full, decide_True by done.
           assert (index_of l old = None) as ->. { apply index_of_None, Hall. by eapply elem_of_list_lookup_2. }
           done.
      * rewrite decide_False; [done|]. intros [?|[Hne HF]]; [congruence|].
        destruct label as [|l label]; [done|]. apply (Hall l); [by left|]. by inversion HF.
    + apply bind_ok in Hx as (x0 & Hx0 & Hx).
      assert (Hd0 : nd_dtype x0 = ldtype y). { unfold nda_take in Hx0. by apply bind_ok in Hx0 as (b & _ & [= <-]). }
      destruct (refill_realigned y ax old label idx miss x0 x Hv Hold Hnd Hlm Hx0) as [Hr Hd].
      { destruct miss as [|m0 ms]; [congruence|]. unfold to_missing. rewrite Hd0 in *.
        destruct (missing_marker (ldtype y)) as [mk|] eqn:Hmk.
        - apply missing_marker_mark in Hmk as [-> ->]. done.
        - apply bind_ok in Hx as (mk & Hmk' & Hx). apply of_opt_ok in Hmk'. simpl in Hmk'. injection Hmk' as <-.
          apply missing_marker_None in Hmk as ->. done. }
      split; [done|]. unfold ldtype at 1. simpl. rewrite Hd.
      pose proof (listmap_fill_spec _ _ _ _ _ Hlm) as (Hl & _ & _ & _ & Hmiss).
      destruct (decide (miss = [])) as [->|Hne].
      * rewrite decide_True; [done|]. right. split.
        -- intros ->. simpl in *. lia.
        -- apply Forall_forall. intros l Hin. destruct (decide (l ∈ old)); [done|].
           apply elem_of_list_lookup in Hin as [k Hk].
           assert (k ∈ []) as HH by (apply Hmiss; eauto). by apply elem_of_nil in HH.
      * rewrite decide_False; [done|]. intros [?|[_ HF]]; [congruence|].
        destruct miss as [|m ms]; [done|]. destruct (proj1 (Hmiss m)) as (l & Hml & Hno); [by left|].
        apply Hno. rewrite Forall_forall in HF. apply HF. by eapply elem_of_list_lookup_2.
Qed.

Lemma morph_eq y label axis ax old :
  valid y -> py_axis y axis = Ok ax -> llabel y !! ax = Some old -> old <> label ->
  exists x, morph y label axis = if py_nodup label then Ok (Larry x (<[ax := label]> (llabel y))) else Err IndexError.
Proof.
  intros Hv Hax Hold Hne. unfold morph.
  assert (Hlt : ~ (Z.of_nat (lndim y) <= axis)%Z).
  { apply py_axis_ok in Hax as [? [?|?]]; rewrite <-(valid_ndim y Hv); lia. }
  rewrite decide_False by done. rewrite Hax. simpl.
  rewrite (proj2 (axis_label_ok _ _ _) Hold). simpl. rewrite decide_False by done.
  assert (Hndold : NoDup old) by exact (Forall_lookup_1 _ _ _ _ (valid_nodup y Hv) Hold).
  assert (Hsh : lshape y !! ax = Some (length old)).
  { rewrite <-(valid_shape y Hv), list_lookup_fmap, Hold. done. }
  destruct (listmap_fill old label 0) as [idx miss] eqn:Hlm.
  pose proof (listmap_fill_spec _ _ _ _ _ Hlm) as (Hl & _ & _ & _ & Hmiss).
  case_decide as Hlen.
  - rewrite marker_dtype, nans_mark. simpl. eauto.
  - destruct (fill_take_ex (lx y) ax old label idx miss) as [x Hx]; [by apply valid_wf|done|done| |].
    { destruct miss as [|m ms]; [by right|]. left. intros ->. apply Hlen. clear Hlen.
      rewrite listmap_fill_eq in Hlm. injection Hlm as <- Hm. rewrite fmap_length.
      rewrite <-Hm. clear. generalize 0 as n. induction label as [|a l IH]; intros n; [done|].
      simpl. f_equal. apply IH. }
    rewrite Hx. simpl. destruct (fill_take (lx y) ax old label idx miss x) as (Hd & Hs & Hw & _); [done..|].
    assert (Hput : forall x' v, nd_shape x' = nd_shape x -> arr_wf (nd_arr x') -> store (nd_dtype x') v = Ok v ->
              exists x'', put_axis x' miss ax v = Ok x'').
    { intros x' v Hs' Hw' Hst. eapply (put_axis_ex _ _ _ _ _ (length label)); [done| | |done].
      - change (shape (nd_arr x')) with (nd_shape x'). rewrite Hs', Hs. apply list_lookup_insert.
        by eapply lookup_lt_Some.
      - apply Forall_forall. intros i (l & Hil & _)%Hmiss. by eapply lookup_lt_Some. }
    destruct miss as [|m ms]; [simpl; eauto|].
    destruct (missing_marker (nd_dtype x)) as [mk|] eqn:Hmk.
    + destruct (Hput x mk) as [x'' ->]; [done|done| |simpl; eauto].
      apply missing_marker_mark in Hmk as [-> Hm]. rewrite <-Hm. apply store_mark.
    + simpl. destruct (Hput (astype_float x) (VFloat NaN)) as [x'' ->]; [done| |done|simpl; eauto].
      simpl. by apply amap_wf.
Qed.

Lemma morph_ok y label axis ax :
  valid y -> py_axis y axis = Ok ax -> NoDup label -> exists z, morph y label axis = Ok z.
Proof.
  intros Hv Hax Hnd. destruct (axis_label_exists _ _ _ Hax) as (old & Ho & Hold).
  destruct (decide (old = label)) as [->|Hne].
  - unfold morph. rewrite Hax. simpl. rewrite Ho. simpl. rewrite decide_False, decide_True by done || (apply py_axis_ok in Hax as [? [?|?]]; rewrite <-(valid_ndim y Hv); lia). eauto.
  - destruct (morph_eq y label axis ax old Hv Hax Hold Hne) as [x ->].
    apply py_nodup_spec in Hnd. rewrite Hnd. eauto.
Qed.
Lemma morph_dup y label axis ax :
  valid y -> py_axis y axis = Ok ax -> ~ NoDup label -> morph y label axis = Err IndexError.
Proof.
  intros Hv Hax Hnd. destruct (axis_label_exists _ _ _ Hax) as (old & Ho & Hold).
  assert (Hndold : NoDup old) by exact (Forall_lookup_1 _ _ _ _ (valid_nodup y Hv) Hold).
  destruct (morph_eq y label axis ax old Hv Hax Hold) as [x ->]; [congruence|].
  apply py_nodup_false in Hnd. by rewrite Hnd.
Qed.
Lemma morph_bad_axis y label axis :
  valid y -> (forall ax, py_axis y axis <> Ok ax) -> morph y label axis = Err IndexError.
Proof.
  intros Hv Hax. unfold morph. case_decide; [done|].
  destruct (py_axis y axis) as [ax|e] eqn:E; [by destruct (Hax ax)|]. simpl. by rewrite (py_axis_err _ _ _ E).
Qed.

(** Moving one further axis, which so far is untouched. *)
Lemma realigned_step y z w ax (new : list lab) :
  valid y -> realigned y z -> realigned z w -> ax < length (llabel z) ->
  llabel z !! ax = llabel y !! ax -> llabel w = <[ax := new]> (llabel z) -> realigned y w.
Proof.
  intros Hv Hyz Hzw Hlt Hsame Hw. apply (realigned_trans y z w); [done..|].
  intros ls Hy HW. rewrite Hw in HW. destruct (lookup_lt_is_Some_2 _ _ Hlt) as [old Hold].
  eapply in_grid_insert_inv; [done|done|]. intros l Hl. rewrite Hsame in Hold.
  destruct (in_grid_lookup _ _ ax old Hy Hold) as (l' & Hl' & ?). by simplify_eq.
Qed.

(** Loops over all axes. *)
Lemma foldM_seq_inv {S} (P : nat -> S -> Prop) (f : S -> nat -> res S) s n s' :
  P 0 s -> (forall k s s', k < n -> P k s -> f s k = Ok s' -> P (Datatypes.S k) s') ->
  foldM f s (seq 0 n) = Ok s' -> P n s'.
Proof.
  intros H0 Hstep. enough (G : forall m k s, k + m = n -> P k s -> foldM f s (seq k m) = Ok s' -> P n s').
  { intros HF. by apply (G n 0 s). }
  induction m as [|m IH]; intros k t Hk HP HF; simpl in HF.
  - injection HF as <-. by replace n with k by lia.
  - destruct (f t k) as [t'|] eqn:E; [|done]. apply (IH (Datatypes.S k) t'); [lia| |done].
    eapply Hstep; [|done|done]. lia.
Qed.
Lemma foldM_seq_ex {S} (P : nat -> S -> Prop) (f : S -> nat -> res S) s n :
  P 0 s -> (forall k s, k < n -> P k s -> exists s', f s k = Ok s' /\ P (Datatypes.S k) s') ->
  exists s', foldM f s (seq 0 n) = Ok s' /\ P n s'.
Proof.
  intros H0 Hstep. enough (G : forall m k s, k + m = n -> P k s -> exists s', foldM f s (seq k m) = Ok s' /\ P n s').
  { by apply (G n 0 s). }
  induction m as [|m IH]; intros k t Hk HP; simpl.
  - exists t. by replace n with k by lia.
  - destruct (Hstep k t) as (t' & -> & HP'); [lia|done|]. apply (IH (Datatypes.S k) t'); [lia|done].
Qed.

(** Labels while a loop replaces them one by one. *)
Definition mixed {A} (k : nat) (new old : list A) : list A := take k new ++ drop k old.
Lemma mixed_0 {A} (new old : list A) : mixed 0 new old = old.
Proof. unfold mixed. by rewrite drop_0. Qed.
Lemma mixed_full {A} n (new old : list A) : length new = n -> length old = n -> mixed n new old = new.
Proof. intros <- Ho. unfold mixed. rewrite firstn_all, drop_ge by lia. by rewrite app_nil_r. Qed.
Lemma mixed_length {A} k (new old : list A) : length new = length old -> k <= length new -> length (mixed k new old) = length old.
Proof. intros. unfold mixed. rewrite app_length, take_length, drop_length. lia. Qed.
Lemma mixed_lookup_ge {A} k i (new old : list A) : k <= length new -> k <= i -> mixed k new old !! i = old !! i.
Proof.
  intros Hk Hi. unfold mixed. rewrite lookup_app_r by (rewrite take_length; lia).
  rewrite lookup_drop, take_length. f_equal. lia.
Qed.
Lemma mixed_step {A} k (x : A) (new old : list A) :
  length new = length old -> new !! k = Some x -> <[k := x]> (mixed k new old) = mixed (S k) new old.
Proof.
  intros Hlen Hx. pose proof (lookup_lt_Some _ _ _ Hx) as Hlt. unfold mixed.
  rewrite insert_app_r_alt by (rewrite take_length; lia).
  rewrite take_length, Nat.min_l by lia. rewrite Nat.sub_diag.
  destruct (lookup_lt_is_Some_2 old k) as [y Hy]; [lia|].
  rewrite (drop_S old y k Hy). simpl. rewrite (take_S_r new k x Hx). by rewrite <-app_assoc.
Qed.
Lemma mixed_step_same {A} k (new old : list A) :
  length new = length old -> new !! k = old !! k -> k < length old -> mixed (S k) new old = mixed k new old.
Proof.
  intros Hlen Hx Hlt. destruct (lookup_lt_is_Some_2 new k) as [x Hk]; [lia|].
  rewrite <-(mixed_step k x) by done. apply list_insert_id. rewrite mixed_lookup_ge by lia. congruence.
Qed.

Lemma getlabel_nat y i l : valid y -> llabel y !! i = Some l -> getlabel y (Z.of_nat i) = Ok l.
Proof.
  intros Hv Hl. unfold getlabel. pose proof (lookup_lt_Some _ _ _ Hl) as Hlt.
  rewrite decide_False by (rewrite <-(valid_ndim y Hv); lia). rewrite py_axis_nat by done. simpl.
  by apply axis_label_ok.
Qed.

Lemma morph_like_spec y lar :
  valid y -> valid lar -> lndim y = lndim lar ->
  exists z, morph_like y lar = Ok z /\ llabel z = llabel lar /\ realigned y z.
Proof.
  intros Hv Hvl Hnd. unfold morph_like. rewrite decide_False by lia.
  assert (Hlen : length (llabel lar) = length (llabel y)) by (rewrite !valid_ndim; done).
  destruct (foldM_seq_ex (fun k z => llabel z = mixed k (llabel lar) (llabel y) /\ realigned y z)
    (fun y i => l ← getlabel lar (Z.of_nat i); morph y l (Z.of_nat i)) y (lndim y)) as (z & Hz & Hlab & Hr).
  - rewrite mixed_0. split; [done|]. by apply realigned_refl.
  - intros k z Hk [Hlab Hr]. rewrite <-valid_ndim in Hk by done.
    destruct (lookup_lt_is_Some_2 (llabel lar) k) as [l Hl]; [lia|].
    rewrite (getlabel_nat _ _ _ Hvl Hl). simpl.
    assert (Hvz : valid z) by (by destruct Hr).
    assert (Hlz : length (llabel z) = length (llabel y)) by (rewrite Hlab; apply mixed_length; lia).
    assert (Hax : py_axis z (Z.of_nat k) = Ok k) by (apply py_axis_nat; lia).
    assert (NoDup l) by exact (Forall_lookup_1 _ _ _ _ (valid_nodup lar Hvl) Hl).
    destruct (morph_ok z l _ k Hvz Hax) as [w Hw]; [done|]. exists w. split; [done|].
    destruct (morph_spec _ _ _ _ Hvz Hw) as (ax' & old & Hax' & Hold & _ & Hlw & Hrw & _).
    rewrite Hax in Hax'. injection Hax' as <-. split.
    + by rewrite Hlw, Hlab, mixed_step.
    + eapply (realigned_step y z w k l); [done..|lia| |done]. rewrite Hlab. apply mixed_lookup_ge; lia.
  - exists z. split; [done|]. rewrite Hlab, mixed_full; [done| |]; rewrite <-valid_ndim; done.
Qed.
Lemma morph_like_ndim y lar : lndim y <> lndim lar -> morph_like y lar = Err IndexError.
Proof. intros. unfold morph_like. by rewrite decide_True. Qed.


Lemma StronglySorted_snoc {A} (R : A -> A -> Prop) l x :
  StronglySorted R l -> Forall (fun a => R a x) l -> StronglySorted R (l ++ [x]).
Proof.
  induction 1 as [|a l Hs IH HF]; intros HA; simpl.
  - repeat constructor.
  - inversion HA; subst. constructor; [by apply IH|]. apply Forall_app. split; [done|]. by repeat constructor.
Qed.
Lemma StronglySorted_reverse {A} (R : A -> A -> Prop) l :
  StronglySorted R l -> StronglySorted (fun a b => R b a) (reverse l).
Proof.
  induction 1 as [|a l Hs IH HF]; [constructor|]. rewrite reverse_cons.
  apply StronglySorted_snoc; [done|]. by rewrite Forall_reverse.
Qed.
Lemma py_sorted_dir (reverse : bool) l l' :
  (if reverse then py_sorted_rev l else py_sorted l) = Ok l' -> sorted_dir reverse l' /\ l' ≡ₚ l.
Proof.
  unfold sorted_dir. destruct reverse.
  - unfold py_sorted_rev. rewrite fmap_ok. intros (k & Hk & ->). apply py_sorted_ok in Hk as (_ & Hs & Hp).
    split; [by apply StronglySorted_reverse|]. by rewrite reverse_Permutation.
  - intros (_ & Hs & Hp)%py_sorted_ok. done.
Qed.
Lemma py_sorted_total l : sortable l = true -> exists l', py_sorted l = Ok l'.
Proof. intros H. unfold py_sorted. rewrite H. eauto. Qed.
Lemma sorted_dir_total (reverse : bool) l :
  sortable l = true -> exists l', (if reverse then py_sorted_rev l else py_sorted l) = Ok l'.
Proof.
  intros [l' Hl]%py_sorted_total. destruct reverse; [|eauto]. unfold py_sorted_rev. rewrite Hl. simpl. eauto.
Qed.
Lemma sorted_dir_err (reverse : bool) l :
  sortable l = false -> (if reverse then py_sorted_rev l else py_sorted l) = Err TypeError.
Proof. intros H. unfold py_sorted_rev, py_sorted. rewrite H. by destruct reverse. Qed.

Lemma py_get_shape y axis ax l :
  valid y -> py_axis y axis = Ok ax -> llabel y !! ax = Some l -> py_get (lshape y) axis = Some (length l).
Proof.
  intros Hv Hax Hl. unfold py_get. unfold py_axis in Hax. apply of_opt_ok in Hax.
  rewrite <-(valid_shape y Hv), fmap_length, Hax. simpl. by rewrite list_lookup_fmap, Hl.
Qed.

Lemma morph_perm z label axis ax old w :
  valid z -> py_axis z axis = Ok ax -> llabel z !! ax = Some old -> label ≡ₚ old -> morph z label axis = Ok w ->
  llabel w = <[ax := label]> (llabel z) /\ realigned z w /\ ldtype w = ldtype z.
Proof.
  intros Hv Hax Hold Hp Hm. destruct (morph_spec _ _ _ _ Hv Hm) as (ax' & old' & Hax' & Hold' & _ & Hlw & Hr & Hd).
  rewrite Hax in Hax'. injection Hax' as <-. simplify_eq. split_and!; [done|done|].
  rewrite Hd. unfold morph_dtype. rewrite decide_True; [done|].
  destruct label as [|a label].
  - left. symmetry. by apply Permutation_nil.
  - right. split; [done|]. apply Forall_forall. intros x Hx. by rewrite <-Hp.
Qed.

Lemma sortaxis_step_spec (reverse : bool) self z axis ax l w :
  valid self -> valid z -> length (llabel z) = length (llabel self) ->
  py_axis self axis = Ok ax -> llabel self !! ax = Some l -> llabel z !! ax = Some l ->
  sortaxis_step reverse self z axis = Ok w ->
  exists l', sorted_dir reverse l' /\ l' ≡ₚ l /\ llabel w = <[ax := l']> (llabel z) /\
    realigned z w /\ ldtype w = ldtype z.
Proof.
  intros Hv Hvz Hlen Hax Hl Hlz Hst. unfold sortaxis_step in Hst.
  rewrite (py_get_shape _ _ _ _ Hv Hax Hl) in Hst. simpl in Hst.
  assert (Haxz : py_axis z axis = Ok ax). { unfold py_axis in *. by rewrite Hlen. }
  destruct (decide (1 < length l)).
  - rewrite Hax in Hst. simpl in Hst. rewrite (proj2 (axis_label_ok _ _ _) Hl) in Hst. simpl in Hst.
    apply bind_ok in Hst as (l' & Hl' & Hm). apply py_sorted_dir in Hl' as [Hs Hp].
    exists l'. split; [done|]. split; [done|]. by eapply morph_perm.
  - injection Hst as <-. exists l. split_and!; [|done| |by apply realigned_refl|done].
    + destruct l as [|a [|]]; simpl in *; [constructor|repeat constructor|lia].
    + by rewrite list_insert_id.
Qed.
Lemma sortaxis_step_ex (reverse : bool) self z axis ax l :
  valid self -> valid z -> length (llabel z) = length (llabel self) ->
  py_axis self axis = Ok ax -> llabel self !! ax = Some l -> sortable l = true ->
  exists w, sortaxis_step reverse self z axis = Ok w.
Proof.
  intros Hv Hvz Hlen Hax Hl Hso. unfold sortaxis_step.
  rewrite (py_get_shape _ _ _ _ Hv Hax Hl). simpl.
  assert (Haxz : py_axis z axis = Ok ax). { unfold py_axis in *. by rewrite Hlen. }
  destruct (decide (1 < length l)); [|eauto].
  rewrite Hax. simpl. rewrite (proj2 (axis_label_ok _ _ _) Hl). simpl.
  destruct (sorted_dir_total reverse l Hso) as [l' Hl']. rewrite Hl'. simpl.
  apply py_sorted_dir in Hl' as [Hs Hp]. eapply morph_ok; [done|done|].
  rewrite Hp. exact (Forall_lookup_1 _ _ _ _ (valid_nodup self Hv) Hl).
Qed.


Definition sortaxis_result (reverse : bool) (y : larry) (sel : nat -> Prop) (z : larry) : Prop :=
  realigned y z /\ ldtype z = ldtype y /\ length (llabel z) = length (llabel y) /\
  forall ax l l', llabel y !! ax = Some l -> llabel z !! ax = Some l' ->
    l' ≡ₚ l /\ (sel ax -> sorted_dir reverse l') /\ (~ sel ax -> l' = l).

Lemma sortaxis_result_step (reverse : bool) y (sel sel' : nat -> Prop) z w ax l l' :
  valid y -> sortaxis_result reverse y sel z -> ~ sel ax -> (forall i, sel' i <-> sel i \/ i = ax) ->
  llabel y !! ax = Some l -> sorted_dir reverse l' -> l' ≡ₚ l -> llabel w = <[ax := l']> (llabel z) ->
  realigned z w -> ldtype w = ldtype z -> sortaxis_result reverse y sel' w.
Proof.
  intros Hv (Hr & Hd & Hlen & Hall) Hns Hsel Hl Hs Hp Hlw Hrw Hdw.
  pose proof (lookup_lt_Some _ _ _ Hl) as Hlt.
  assert (Hzl : llabel z !! ax = Some l).
  { destruct (lookup_lt_is_Some_2 (llabel z) ax) as [l2 Hl2]; [lia|].
    destruct (Hall ax l l2 Hl Hl2) as (_ & _ & E). rewrite Hl2. f_equal. by apply E. }
  split_and!.
  - eapply (realigned_step y z w ax l'); [done..|lia|congruence|done].
  - congruence.
  - by rewrite Hlw, insert_length.
  - intros i li li' Hi Hi'. rewrite Hlw in Hi'. destruct (decide (i = ax)) as [->|Hne].
    + rewrite list_lookup_insert in Hi' by lia. simplify_eq. split_and!; [done|done|].
      intros Hn. destruct Hn. apply Hsel. by right.
    + rewrite list_lookup_insert_ne in Hi' by done. destruct (Hall i li li' Hi Hi') as (? & Hse & Hnse).
      split_and!; [done| |].
      * intros [?|?]%Hsel; [by apply Hse|done].
      * intros Hn. apply Hnse. intros ?. apply Hn, Hsel. by left.
Qed.

Lemma foldM_fmap {S X Y} (f : S -> Y -> res S) (g : X -> Y) s l :
  foldM f s (g <$> l) = foldM (fun s x => f s (g x)) s l.
Proof. revert s. induction l as [|x l IH]; intros s; simpl; [done|]. destruct (f s (g x)); [apply IH|done]. Qed.

Lemma sortaxis_spec y axis (reverse : bool) z :
  valid y -> sortaxis y axis reverse = Ok z -> sortaxis_result reverse y (axis_selected y axis) z.
Proof.
  intros Hv. unfold sortaxis.
  assert (H0 : sortaxis_result reverse y (fun _ => False) y).
  { split_and!; [by apply realigned_refl|done|done|]. intros ax l l' H1 H2. simplify_eq. done. }
  destruct axis as [a|]; simpl.
  - destruct (sortaxis_step reverse y y a) as [w|] eqn:E; [|done]. intros [= <-].
    assert (exists ax, py_axis y a = Ok ax) as [ax Hax].
    { unfold sortaxis_step in E. apply bind_ok in E as (n & Hn & _). apply of_opt_ok in Hn.
      unfold py_get in Hn. apply bind_Some in Hn as (i & Hi & _). exists i. unfold py_axis.
      rewrite <-(valid_shape y Hv), fmap_length in Hi. by rewrite Hi. }
    destruct (axis_label_exists _ _ _ Hax) as (l & _ & Hl).
    destruct (sortaxis_step_spec reverse y y a ax l w) as (l' & Hs & Hp & Hlw & Hr & Hd); try done.
    eapply (sortaxis_result_step reverse y _ _ y w ax l l' Hv H0); [by intros []| |done..].
    intros i. simpl. rewrite <-py_axis_is. split; [|intros [[]| ->]; done].
    intros Hi. right. rewrite Hax in Hi. by injection Hi.
  - rewrite foldM_fmap. intros HF.
    assert (G : sortaxis_result reverse y (fun ax => ax < lndim y) z).
    { apply (foldM_seq_inv (fun k z => sortaxis_result reverse y (fun ax => ax < k) z)
        (fun s x => sortaxis_step reverse y s (Z.of_nat x)) y (lndim y) z); [| |done].
      - destruct H0 as (? & ? & ? & Hall). split_and!; [done..|].
        intros ax l l' Hq1 Hq2. destruct (Hall ax l l' Hq1 Hq2) as (? & ? & ?). split_and!; [done|lia|auto].
      - intros k s s' Hk HP Hst. rewrite <-valid_ndim in Hk by done.
        destruct (lookup_lt_is_Some_2 (llabel y) k) as [l Hl]; [done|].
        pose proof HP as (Hr & Hd & Hlen & Hall).
        assert (Hsl : llabel s !! k = Some l).
        { destruct (lookup_lt_is_Some_2 (llabel s) k) as [l2 Hl2]; [lia|].
          destruct (Hall k l l2 Hl Hl2) as (_ & _ & E). rewrite Hl2. f_equal. apply E. lia. }
        assert (Hvs : valid s) by (by destruct Hr).
        destruct (sortaxis_step_spec reverse y s (Z.of_nat k) k l s') as (l' & Hs & Hp & Hlw & Hr' & Hd'); try done.
        { by apply py_axis_nat. }
        eapply (sortaxis_result_step reverse y _ _ s s' k l l' Hv HP); try done; intros; lia. }
    destruct G as (? & ? & ? & Hall). split_and!; [done..|].
    intros ax l l' H1' H2'. simpl. rewrite (valid_ndim y Hv). by apply Hall.
Qed.

Lemma sortaxis_ok y axis (reverse : bool) :
  valid y ->
  (forall ax l, axis_selected y axis ax -> llabel y !! ax = Some l -> all_comparable l) ->
  (forall a, axis = Some a -> exists ax, axis_is y a ax) ->
  exists z, sortaxis y axis reverse = Ok z.
Proof.
  intros Hv Hso' Hex.
  assert (Hso : forall ax l, axis_selected y axis ax -> llabel y !! ax = Some l -> sortable l = true).
  { intros ax l Ha Hl. apply sortable_spec. by eapply Hso'. }
  unfold sortaxis. destruct axis as [a|]; simpl.
  - destruct (Hex a eq_refl) as [ax Hax]. assert (Hax' := Hax). apply py_axis_is in Hax'.
    destruct (axis_label_exists _ _ _ Hax') as (l & _ & Hl).
    destruct (sortaxis_step_ex reverse y y a ax l) as [w ->]; try done; [|eauto]. by eapply Hso.
  - rewrite foldM_fmap.
    destruct (foldM_seq_ex (fun k z => valid z /\ length (llabel z) = length (llabel y) /\
        forall i, k <= i -> llabel z !! i = llabel y !! i)
      (fun s x => sortaxis_step reverse y s (Z.of_nat x)) y (lndim y)) as (z & -> & _); [done| |eauto].
    intros k s Hk (Hvs & Hlen & Hge). rewrite <-valid_ndim in Hk by done.
    destruct (lookup_lt_is_Some_2 (llabel y) k) as [l Hl]; [done|].
    destruct (sortaxis_step_ex reverse y s (Z.of_nat k) k l) as [w Hw]; try done.
    { by apply py_axis_nat. } { by eapply Hso. }
    exists w. split; [done|].
    destruct (sortaxis_step_spec reverse y s (Z.of_nat k) k l w) as (l' & Hs & Hp & Hlw & Hr' & Hd'); try done.
    { by apply py_axis_nat. } { by rewrite Hge by lia. }
    split_and!; [by destruct Hr'|by rewrite Hlw, insert_length|].
    intros i Hi. rewrite Hlw, list_lookup_insert_ne by lia. apply Hge. lia.
Qed.

(** Same labels up to order, same dtype: same cells. *)
Lemma perm_grid (L L' : list (list lab)) ls :
  length L' = length L -> (forall ax l l', L !! ax = Some l -> L' !! ax = Some l' -> l' ≡ₚ l) ->
  in_grid L' ls <-> in_grid L ls.
Proof.
  intros Hlen Hp. rewrite !in_grid_alt. rewrite Hlen. apply and_iff_compat_l.
  split; intros Hg ax l axis Hl Hax.
  - destruct (lookup_lt_is_Some_2 L' ax) as [axis' Hax']. { apply lookup_lt_Some in Hax. lia. }
    rewrite <-(Hp ax axis axis'); eauto.
  - destruct (lookup_lt_is_Some_2 L ax) as [axis' Hax']. { apply lookup_lt_Some in Hax. lia. }
    rewrite (Hp ax axis' axis); eauto.
Qed.
Lemma realigned_same y z ls :
  valid y -> realigned y z -> ldtype z = ldtype y ->
  (in_grid (llabel z) ls <-> in_grid (llabel y) ls) -> cell z ls = cell y ls.
Proof.
  intros Hv (Hvz & _ & _ & Hc) Hd Hg. destruct (decide (in_grid (llabel z) ls)) as [Hz|Hz].
  - rewrite (Hc ls Hz). destruct (proj2 (valid_cell_grid y ls Hv)) as [v Hcy]; [by apply Hg|].
    rewrite Hcy, Hd. f_equal. apply cast_to_typed. by eapply valid_cell_typed.
  - assert (cell z ls = None) as -> by (by apply cell_None_grid).
    symmetry. apply cell_None_grid; [done|]. tauto.
Qed.
Lemma sortaxis_cells y axis (reverse : bool) z ls :
  valid y -> sortaxis y axis reverse = Ok z -> cell z ls = cell y ls.
Proof.
  intros Hv Hz. destruct (sortaxis_spec _ _ _ _ Hv Hz) as (Hr & Hd & Hlen & Hall).
  apply realigned_same; [done..|]. apply perm_grid; [done|]. intros. by eapply Hall.
Qed.

Lemma sorted_dir_unique (reverse : bool) l1 l2 : sorted_dir reverse l1 -> sorted_dir reverse l2 -> l1 ≡ₚ l2 -> l1 = l2.
Proof.
  unfold sorted_dir. destruct reverse; intros H1 H2 Hp.
  - apply StronglySorted_reverse in H1, H2. apply (inj reverse).
    apply sorted_unique; [done|done|]. by rewrite !reverse_Permutation.
  - by apply sorted_unique.
Qed.

Lemma sortaxis_order y1 y2 axis (reverse : bool) z1 z2 :
  valid y1 -> valid y2 -> ldtype y1 = ldtype y2 ->
  length (llabel y1) = length (llabel y2) ->
  (forall ax l1 l2, llabel y1 !! ax = Some l1 -> llabel y2 !! ax = Some l2 ->
     l1 ≡ₚ l2 /\ (~ axis_selected y1 axis ax -> l1 = l2)) ->
  (forall ls, cell y1 ls = cell y2 ls) ->
  sortaxis y1 axis reverse = Ok z1 -> sortaxis y2 axis reverse = Ok z2 -> z1 = z2.
Proof.
  intros Hv1 Hv2 Hdt Hlen Hp Hc H1 H2.
  pose proof (sortaxis_spec _ _ _ _ Hv1 H1) as (Hr1 & Hd1 & Hl1 & Hall1).
  pose proof (sortaxis_spec _ _ _ _ Hv2 H2) as (Hr2 & Hd2 & Hl2 & Hall2).
  assert (Hsel : forall ax, axis_selected y1 axis ax <-> axis_selected y2 axis ax).
  { intros ax. unfold axis_selected, axis_is. by rewrite Hlen. }
  apply larry_ext; [by destruct Hr1|by destruct Hr2|congruence| |].
  - apply list_eq_same_length with (length (llabel y1)); [lia|lia|].
    intros i l1' l2' Hi Hl1' Hl2'.
    destruct (lookup_lt_is_Some_2 (llabel y1) i) as [l1 Hl1i]; [done|].
    destruct (lookup_lt_is_Some_2 (llabel y2) i) as [l2 Hl2i]; [lia|].
    destruct (Hall1 i l1 l1') as (P1 & S1 & N1); [done..|].
    destruct (Hall2 i l2 l2') as (P2 & S2 & N2); [done..|].
    destruct (Hp i l1 l2) as (P & N); [done..|].
    assert (Hdec : Decision (axis_selected y1 axis i)).
    { unfold axis_selected, axis_is. destruct axis; apply _. }
    destruct (decide (axis_selected y1 axis i)) as [Hs|Hs].
    + apply (sorted_dir_unique reverse); [by apply S1|by apply S2, Hsel|]. by rewrite P1, P2.
    + rewrite N1, N2, N; [done|done| |done]. by rewrite <-Hsel.
  - intros ls _. rewrite (sortaxis_cells y1 axis reverse z1), (sortaxis_cells y2 axis reverse z2); done.
Qed.
Lemma sorted_sortable_idem y axis (reverse : bool) z :
  valid y -> sortaxis y axis reverse = Ok z -> forall w, sortaxis z axis reverse = Ok w -> w = z.
Proof.
  intros Hv Hz w Hw. pose proof (sortaxis_spec _ _ _ _ Hv Hz) as (Hr & Hd & Hl & Hall).
  assert (Hvz : valid z) by (by destruct Hr).
  assert (Hsel : forall ax, axis_selected z axis ax <-> axis_selected y axis ax).
  { intros ax. unfold axis_selected, axis_is. by rewrite Hl. }
  pose proof (sortaxis_spec _ _ _ _ Hvz Hw) as (Hr2 & Hd2 & Hl2 & Hall2).
  apply larry_ext; [by destruct Hr2|done|done| |].
  - apply list_eq_same_length with (length (llabel z)); [done|done|].
    intros i l2 l1 Hi H2 H1. destruct (lookup_lt_is_Some_2 (llabel y) i) as [l0 H0]; [lia|].
    destruct (Hall2 i l1 l2) as (P2 & S2 & N2); [done..|].
    destruct (Hall i l0 l1) as (P1 & S1 & N1); [done..|].
    assert (Hdec : Decision (axis_selected y axis i)).
    { unfold axis_selected, axis_is. destruct axis; apply _. }
    destruct (decide (axis_selected y axis i)) as [Hs|Hs].
    + apply (sorted_dir_unique reverse); [by apply S2, Hsel|by apply S1|done].
    + apply N2. by rewrite Hsel.
  - intros ls _. by eapply sortaxis_cells.
Qed.

(** * merge *)
Lemma union_label_nodup l1 l2 u : NoDup l1 -> union_label l1 l2 u -> NoDup u.
Proof. unfold union_label. case_decide; [by intros ? ->|]. intros _ [Hs _]. by apply lt_sorted_nodup. Qed.

(** State of a loop that replaces the labels of two larrys axis by axis by a
    common label satisfying [J]. *)
Definition aligned_upto (J : nat -> list lab -> list lab -> list lab -> list lab -> Prop)
    (k : nat) (y1 y2 z1 z2 : larry) : Prop :=
  realigned y1 z1 /\ realigned y2 z2 /\
  length (llabel z1) = length (llabel y1) /\ length (llabel z2) = length (llabel y2) /\
  (forall i l1 l2 r1 r2, i < k -> llabel y1 !! i = Some l1 -> llabel y2 !! i = Some l2 ->
     llabel z1 !! i = Some r1 -> llabel z2 !! i = Some r2 -> J i l1 l2 r1 r2) /\
  (forall i, k <= i -> llabel z1 !! i = llabel y1 !! i /\ llabel z2 !! i = llabel y2 !! i).

Lemma aligned_upto_0 J y1 y2 : valid y1 -> valid y2 -> aligned_upto J 0 y1 y2 y1 y2.
Proof. intros. split_and!; [by apply realigned_refl..|done|done|lia|done]. Qed.
Lemma aligned_upto_step J k y1 y2 z1 z2 w1 w2 l1 l2 n1 n2 :
  valid y1 -> valid y2 -> aligned_upto J k y1 y2 z1 z2 ->
  llabel y1 !! k = Some l1 -> llabel y2 !! k = Some l2 ->
  realigned z1 w1 -> realigned z2 w2 ->
  llabel w1 = <[k := n1]> (llabel z1) -> llabel w2 = <[k := n2]> (llabel z2) -> J k l1 l2 n1 n2 ->
  aligned_upto J (S k) y1 y2 w1 w2.
Proof.
  intros Hv1 Hv2 (Hr1 & Hr2 & Hl1 & Hl2 & Hlt & Hge) Hk1 Hk2 Hw1 Hw2 Hn1 Hn2 HJ.
  pose proof (lookup_lt_Some _ _ _ Hk1). pose proof (lookup_lt_Some _ _ _ Hk2).
  destruct (Hge k) as [G1 G2]; [lia|].
  split_and!.
  - eapply (realigned_step y1 z1 w1 k n1); [done..|lia|done|done].
  - eapply (realigned_step y2 z2 w2 k n2); [done..|lia|done|done].
  - by rewrite Hn1, insert_length.
  - by rewrite Hn2, insert_length.
  - intros i a1 a2 r1 r2 Hi Ha1 Ha2 H1 H2. rewrite Hn1 in H1. rewrite Hn2 in H2.
    destruct (decide (i = k)) as [->|Hne].
    + rewrite list_lookup_insert in H1, H2 by lia. by simplify_eq.
    + rewrite list_lookup_insert_ne in H1, H2 by done. eapply (Hlt i); [lia|done..].
  - intros i Hi. rewrite Hn1, Hn2, !list_lookup_insert_ne by lia. apply Hge. lia.
Qed.

Lemma merge_align_spec y1 y2 z1 z2 :
  valid y1 -> valid y2 -> lndim y1 = lndim y2 ->
  foldM merge_align_step (y1, y2) (seq 0 (lndim y1)) = Ok (z1, z2) ->
  aligned_upto (fun _ l1 l2 r1 r2 => r1 = r2 /\ union_label l1 l2 r1) (lndim y1) y1 y2 z1 z2.
Proof.
  intros Hv1 Hv2 Hnd HF.
  apply (foldM_seq_inv (fun k (st : larry * larry) =>
    aligned_upto (fun _ l1 l2 r1 r2 => r1 = r2 /\ union_label l1 l2 r1) k y1 y2 st.1 st.2) _ (y1, y2) _ _ (aligned_upto_0 _ y1 y2 Hv1 Hv2)) in HF; [done|].
  clear z1 z2 HF. intros k [z1 z2] [w1 w2] Hk HP. simpl in *. pose proof HP as (Hr1 & Hr2 & _ & _ & _ & Hge).
  destruct (lookup_lt_is_Some_2 (llabel y1) k) as [l1 Hl1]; [by rewrite valid_ndim|].
  destruct (lookup_lt_is_Some_2 (llabel y2) k) as [l2 Hl2]; [rewrite valid_ndim by done; lia|].
  destruct (Hge k) as [G1 G2]; [lia|]. rewrite Hl1 in G1. rewrite Hl2 in G2.
  rewrite (proj2 (axis_label_ok _ _ _) G1), (proj2 (axis_label_ok _ _ _) G2). simpl.
  destruct (decide (l1 = l2)) as [->|Hne].
  - intros [= <- <-]. eapply (aligned_upto_step _ k y1 y2 z1 z2 z1 z2 l2 l2 l2 l2); try done.
    + apply realigned_refl. by destruct Hr1.
    + apply realigned_refl. by destruct Hr2.
    + by rewrite list_insert_id.
    + by rewrite list_insert_id.
    + split; [done|]. unfold union_label. by rewrite decide_True.
  - rewrite bind_ok. intros (u & Hu & H). apply bind_ok in H as (w1' & Hw1 & H). apply bind_ok in H as (w2' & Hw2 & [= -> ->]).
    destruct (morph_spec z1 _ _ _ (proj1 Hr1) Hw1) as (a1 & o1 & Ha1 & _ & _ & Hlw1 & Hrw1 & _).
    destruct (morph_spec z2 _ _ _ (proj1 Hr2) Hw2) as (a2 & o2 & Ha2 & _ & _ & Hlw2 & Hrw2 & _).
    rewrite py_axis_nat in Ha1 by (by eapply lookup_lt_Some). injection Ha1 as <-.
    rewrite py_axis_nat in Ha2 by (by eapply lookup_lt_Some). injection Ha2 as <-.
    eapply (aligned_upto_step _ k y1 y2 z1 z2 w1 w2 l1 l2 u u); try done.
    split; [done|]. unfold union_label. rewrite decide_False by done.
    apply sorted_set_ok in Hu as [Hs Hin]. split; [done|]. intros x. rewrite Hin. apply elem_of_app.
Qed.
Lemma merge_align_ex y1 y2 :
  valid y1 -> valid y2 -> lndim y1 = lndim y2 ->
  (forall i l1 l2, llabel y1 !! i = Some l1 -> llabel y2 !! i = Some l2 -> l1 = l2 \/ all_comparable (l1 ++ l2)) ->
  exists z1 z2, foldM merge_align_step (y1, y2) (seq 0 (lndim y1)) = Ok (z1, z2).
Proof.
  intros Hv1 Hv2 Hnd Hso.
  destruct (foldM_seq_ex (fun k (st : larry * larry) =>
    aligned_upto (fun _ l1 l2 r1 r2 => True) k y1 y2 st.1 st.2) merge_align_step (y1, y2) (lndim y1)) as ([z1 z2] & -> & _);
    [by apply aligned_upto_0| |by eauto].
  intros k [z1 z2] Hk HP. simpl in *. pose proof HP as (Hr1 & Hr2 & _ & _ & _ & Hge).
  destruct (lookup_lt_is_Some_2 (llabel y1) k) as [l1 Hl1]; [by rewrite valid_ndim|].
  destruct (lookup_lt_is_Some_2 (llabel y2) k) as [l2 Hl2]; [rewrite valid_ndim by done; lia|].
  destruct (Hge k) as [G1 G2]; [lia|]. rewrite Hl1 in G1. rewrite Hl2 in G2.
  rewrite (proj2 (axis_label_ok _ _ _) G1), (proj2 (axis_label_ok _ _ _) G2). simpl.
  destruct (decide (l1 = l2)) as [->|Hne].
  - exists (z1, z2). split; [done|]. eapply (aligned_upto_step _ k y1 y2 z1 z2 z1 z2 l2 l2 l2 l2); try done.
    + apply realigned_refl. by destruct Hr1.
    + apply realigned_refl. by destruct Hr2.
    + by rewrite list_insert_id.
    + by rewrite list_insert_id.
  - destruct (Hso k l1 l2 Hl1 Hl2) as [?|Hs]; [done|]. apply sortable_spec in Hs.
    destruct (py_sorted_total (remove_dups (l1 ++ l2))) as [u Hu].
    { eapply sortable_incl; [|done]. intros x. by rewrite elem_of_remove_dups. }
    unfold sorted_set. rewrite Hu. simpl.
    assert (Hndu : NoDup u) by (eapply py_sorted_nodup; [done|apply NoDup_remove_dups]).
    assert (A1 : py_axis z1 (Z.of_nat k) = Ok k) by (apply py_axis_nat; by eapply lookup_lt_Some).
    assert (A2 : py_axis z2 (Z.of_nat k) = Ok k) by (apply py_axis_nat; by eapply lookup_lt_Some).
    destruct (morph_ok z1 u _ k (proj1 Hr1) A1 Hndu) as [w1 Hw1]. rewrite Hw1. simpl.
    destruct (morph_ok z2 u _ k (proj1 Hr2) A2 Hndu) as [w2 Hw2]. rewrite Hw2. simpl.
    exists (w1, w2). split; [done|].
    destruct (morph_spec z1 _ _ _ (proj1 Hr1) Hw1) as (a1 & o1 & Ha1 & _ & _ & Hlw1 & Hrw1 & _).
    destruct (morph_spec z2 _ _ _ (proj1 Hr2) Hw2) as (a2 & o2 & Ha2 & _ & _ & Hlw2 & Hrw2 & _).
    rewrite A1 in Ha1. rewrite A2 in Ha2. injection Ha1 as <-. injection Ha2 as <-.
    eapply (aligned_upto_step _ k y1 y2 z1 z2 w1 w2 l1 l2 u u); done.
Qed.

(** What the mask of one element is. *)
Definition mask_val (dt : dtype) (v : val) : bool :=
  match dt with
  | DObj => bool_decide (v <> VNone)
  | DStr => bool_decide (v <> VStr EmptyString)
  | _ => val_isfinite v
  end.
Lemma merge_mask_get x idx : aget (merge_mask x) idx = mask_val (nd_dtype x) <$> aget (nd_arr x) idx.
Proof. unfold merge_mask. destruct x as [[] a]; simpl; by rewrite get_amap. Qed.
Lemma merge_mask_shape x : shape (merge_mask x) = nd_shape x.
Proof. by destruct x as [[] a]. Qed.
Lemma merge_mask_wf x : arr_wf (nd_arr x) -> arr_wf (merge_mask x).
Proof. destruct x as [[] a]; apply amap_wf. Qed.

Lemma any_true_spec (m : arr bool) : arr_wf m -> any_true m = true <-> exists idx, aget m idx = Some true.
Proof.
  intros Hwf. unfold any_true. rewrite existsb_exists. split.
  - intros (b & Hb & Ht). unfold id in Ht. subst b. apply elem_of_list_In, elem_of_list_lookup in Hb as [k Hk].
    apply data_get in Hk as (idx & _ & Hg); eauto.
  - intros [idx Hg]. exists true. split; [|done]. apply elem_of_list_In.
    rewrite get_ravel in Hg by (by eapply get_in_range). by eapply elem_of_list_lookup_2.
Qed.

(** The mask says whether there is data, if there are no infinities. *)
Lemma mask_realigned y z ls v :
  valid y -> no_inf y -> realigned y z -> in_grid (llabel z) ls -> cell z ls = Some v ->
  mask_val (ldtype z) v = bool_decide (is_Some (data_at y ls)) /\
  (forall u, data_at y ls = Some u -> v = cast_to (ldtype z) u) /\
  (data_at y ls = None -> v = missing_mark (ldtype z)).
Proof.
  intros Hv Hni (Hvz & Hd & Hm & Hc) Hg Hcz. rewrite (Hc ls Hg) in Hcz. injection Hcz as <-.
  unfold data_at. destruct (cell y ls) as [v|] eqn:Hcy; simpl.
  - pose proof (valid_cell_typed _ _ _ Hv Hcy) as Ht. specialize (Hni ls). rewrite Hcy in Hni.
    assert (Hinf : forall n, v = VFloat n -> is_inf n = false) by (intros n ->; by apply Hni).
    clear Hcy Hni Hm. destruct (ldtype y); destruct v; try discriminate Ht;
      repeat match goal with H : val_to_float _ = _ |- _ => clear H end;
      (destruct Hd as [-> | ->]); simpl; repeat case_decide; simpl; try done.
    all: try (split_and!; [try done|intros u [= <-]; done|done]).
    all: try (match goal with n : num |- _ => destruct n; try done; by specialize (Hinf _ eq_refl) end).
    all: try (by rewrite bool_decide_false by congruence).
    all: try (by rewrite bool_decide_true by congruence).
    all: try naive_solver.
  - rewrite (Hm ls Hg) by (by apply cell_None_grid). split_and!; [by destruct (ldtype y)|done|done].
Qed.

(** Two larrys with equal labels have equal shapes, and their cells are at the
    same positions. *)
Lemma same_label_shape z1 z2 : valid z1 -> valid z2 -> llabel z1 = llabel z2 -> lshape z1 = lshape z2.
Proof. intros H1 H2 E. by rewrite <-(valid_shape z1 H1), <-(valid_shape z2 H2), E. Qed.

(** Elementwise combination of two larrys with equal labels. *)
Lemma zip_valid z1 z2 (f : val -> val -> val) dt :
  valid z1 -> valid z2 -> llabel z1 = llabel z2 ->
  (forall v1 v2, has_dtype (ldtype z1) v1 = true -> has_dtype (ldtype z2) v2 = true -> has_dtype dt (f v1 v2) = true) ->
  let z := Larry (Nda dt (azip f (larr z1) (larr z2))) (llabel z1) in
  valid z /\ forall ls, cell z ls = (v1 ← cell z1 ls; v2 ← cell z2 ls; Some (f v1 v2)).
Proof.
  intros Hv1 Hv2 Hl Ht z. pose proof (same_label_shape _ _ Hv1 Hv2 Hl) as Hsh.
  assert (Hv : valid z).
  { split_and!.
    - apply nda_wf_get.
      + apply azip_wf; [by apply valid_wf..|done].
      + intros idx v. simpl. rewrite get_azip by done. intros Hg.
        apply bind_Some in Hg as (v1 & H1 & Hg). apply bind_Some in Hg as (v2 & H2 & [= <-]).
        apply Ht.
        * eapply (nda_wf_typed (lx z1)); [by destruct Hv1|exact H1].
        * eapply (nda_wf_typed (lx z2)); [by destruct Hv2|exact H2].
    - simpl. by destruct Hv1 as (_ & ? & _).
    - simpl. by destruct Hv1 as (_ & _ & ? & _).
    - simpl. by destruct Hv1 as (_ & _ & _ & ?). }
  split; [done|]. intros ls.
  unfold cell. simpl. rewrite <-Hl.
  destruct (locate (llabel z1) ls) as [idx|]; simpl; [|done].
  change (larr z) with (azip f (larr z1) (larr z2)). by rewrite get_azip.
Qed.

Lemma merge_mask_lar z : valid z ->
  forall ls, (idx ← locate (llabel z) ls; aget (merge_mask (lx z)) idx) = mask_val (ldtype z) <$> cell z ls.
Proof.
  intros Hv ls. unfold cell. destruct (locate (llabel z) ls) as [idx|]; simpl; [|done]. by rewrite merge_mask_get.
Qed.
(** Some element of a mask is set iff some cell is. *)
Lemma any_true_cell z (m : arr bool) :
  valid z -> arr_wf m -> shape m = lshape z ->
  any_true m = true <-> exists ls, (idx ← locate (llabel z) ls; aget m idx) = Some true.
Proof.
  intros Hv Hwf Hsh. rewrite any_true_spec by done. split.
  - intros [idx Hg]. assert (Hr : in_range (lshape z) idx). { rewrite <-Hsh. by eapply get_in_range. }
    destruct (proj2 (get_is_Some (larr z) idx (valid_wf z Hv))) as [v Hgv]; [done|].
    destruct (valid_index_at z idx v Hv Hgv) as (ls & Hls & _). exists ls.
    apply locate_Some in Hls; [|by apply valid_nodup]. by rewrite Hls.
  - intros [ls Hg]. apply bind_Some in Hg as (idx & _ & ?). eauto.
Qed.

Lemma store_safe dt1 dt2 v : safe_cast dt2 dt1 = true -> has_dtype dt2 v = true -> store dt1 v = Ok (cast_to dt1 v).
Proof. destruct dt1, dt2, v; done. Qed.
Lemma cast_to_safe dt1 dt2 v : safe_cast dt2 dt1 = true -> has_dtype dt2 v = true -> has_dtype dt1 (cast_to dt1 v) = true.
Proof. destruct dt1, dt2, v; done. Qed.

Lemma putmask_spec z1 z2 x :
  valid z1 -> valid z2 -> llabel z1 = llabel z2 -> putmask_arr (lx z1) (merge_mask (lx z2)) (lx z2) = Ok x ->
  nd_dtype x = ldtype z1 /\ valid (Larry x (llabel z1)) /\ safe_cast (ldtype z2) (ldtype z1) = true /\
  forall ls, cell (Larry x (llabel z1)) ls =
    (v1 ← cell z1 ls; v2 ← cell z2 ls; Some (if mask_val (ldtype z2) v2 then cast_to (ldtype z1) v2 else v1)).
Proof.
  intros Hv1 Hv2 Hl. unfold putmask_arr. destruct (safe_cast _ _) eqn:Hsafe; [|done].
  rewrite bind_ok. intros (vs & Hvs & [= <-]). split; [done|].
  assert (Hvs' : vs = cast_to (ldtype z1) <$> data (larr z2)).
  { apply mapR_ok in Hvs. pose proof (valid_typed z2 Hv2) as Ht. clear -Hvs Ht Hsafe.
    change (data (nd_arr (lx z2))) with (data (larr z2)) in Hvs. revert Ht.
    induction Hvs as [|v w l k Hw _ IH]; intros Ht; [done|]. inversion Ht; subst. csimpl. f_equal; [|by apply IH].
    rewrite (store_safe _ _ _ Hsafe) in Hw by done. by injection Hw. }
  pose proof (same_label_shape _ _ Hv1 Hv2 Hl) as Hsh.
  set (f := fun v1 v2 => if mask_val (ldtype z2) v2 then cast_to (ldtype z1) v2 else v1).
  assert (Harr : azip (fun xv (m : bool) => if m then xv.2 else xv.1)
       (azip pair (nd_arr (lx z1)) (Arr (nd_shape (lx z2)) vs)) (merge_mask (lx z2)) = azip f (larr z1) (larr z2)).
  { unfold azip. simpl. f_equal. subst vs.
    assert (Hmd : data (merge_mask (lx z2)) = mask_val (ldtype z2) <$> data (larr z2)).
    { clear. unfold larr, ldtype. by destruct (lx z2) as [[] a]. }
    rewrite Hmd. change (nd_arr (lx z1)) with (larr z1). clear.
    generalize (data (larr z1)) as l1. generalize (data (larr z2)) as l2.
    induction l2 as [|b l2 IH]; intros [|a l1]; try done. csimpl. f_equal. apply IH. }
  rewrite Harr. destruct (zip_valid z1 z2 f (ldtype z1)) as [Hv Hc]; [done..| |].
  { intros v1 v2 H1 H2. unfold f. destruct (mask_val _ _); [|done]. by eapply cast_to_safe. }
  done.
Qed.

Lemma same_kind_cases dt1 dt2 :
  dt1 = dt2 \/ numeric dt1 = true /\ numeric dt2 = true ->
  forall d1 d2, (d1 = dt1 \/ d1 = missing_dtype dt1) -> (d2 = dt2 \/ d2 = missing_dtype dt2) ->
  safe_cast d2 d1 = true -> forall v, has_dtype dt2 v = true -> cast_to d1 (cast_to d2 v) = cast_to d1 v.
Proof.
  intros Hk d1 d2 H1 H2 Hs v Hv.
  destruct dt1, dt2; simpl in *; try (by destruct Hk as [?|[? ?]]);
  destruct H1 as [-> | ->], H2 as [-> | ->]; simpl in *; try done; by destruct v.
Qed.


Lemma aligned_same_label y1 y2 z1 z2 (J : list lab -> list lab -> list lab -> Prop) :
  valid y1 -> valid y2 -> lndim y1 = lndim y2 ->
  aligned_upto (fun _ l1 l2 r1 r2 => r1 = r2 /\ J l1 l2 r1) (lndim y1) y1 y2 z1 z2 -> llabel z1 = llabel z2.
Proof.
  intros Hv1 Hv2 Hnd (_ & _ & Hl1 & Hl2 & Hlt & _). rewrite <-!valid_ndim in Hnd by done.
  apply list_eq_same_length with (length (llabel y1)); [congruence|done|].
  intros i r1 r2 Hi H1 H2.
  destruct (lookup_lt_is_Some_2 (llabel y1) i) as [l1 Hy1]; [done|].
  destruct (lookup_lt_is_Some_2 (llabel y2) i) as [l2 Hy2]; [lia|].
  destruct (Hlt i l1 l2 r1 r2) as [? _]; try done. by rewrite <-valid_ndim.
Qed.

(** The overlap test of merge sees exactly the cells with data in both. *)
Lemma merge_overlap y1 y2 z1 z2 :
  valid y1 -> valid y2 -> no_inf y1 -> no_inf y2 -> lndim y1 = lndim y2 ->
  foldM merge_align_step (y1, y2) (seq 0 (lndim y1)) = Ok (z1, z2) ->
  any_true (mask_and (merge_mask (lx z1)) (merge_mask (lx z2))) = true <->
    exists ls, is_Some (data_at y1 ls) /\ is_Some (data_at y2 ls).
Proof.
  intros Hv1 Hv2 Hn1 Hn2 Hnd' HF. pose proof (merge_align_spec _ _ _ _ Hv1 Hv2 Hnd' HF) as Hal.
  pose proof (aligned_same_label _ _ _ _ _ Hv1 Hv2 Hnd' Hal) as Hlab.
  destruct Hal as (Hr1 & Hr2 & Hl1 & Hl2 & Hlt & _).
  pose proof (proj1 Hr1) as Hvz1. pose proof (proj1 Hr2) as Hvz2.
  assert (Hsh : shape (merge_mask (lx z1)) = shape (merge_mask (lx z2))).
    { rewrite !merge_mask_shape. by apply same_label_shape. }
    rewrite (any_true_cell z1); [|done| |].
    2:{ apply azip_wf; [by apply merge_mask_wf, valid_wf..|done]. }
    2:{ unfold mask_and. simpl. apply merge_mask_shape. }
    split.
    - intros [ls Hg]. exists ls. apply bind_Some in Hg as (idx & Hloc & Hg).
      unfold mask_and in Hg. rewrite get_azip in Hg by done.
      apply bind_Some in Hg as (m1 & Hm1 & Hg). apply bind_Some in Hg as (m2 & Hm2 & [= Hm]).
      assert (C1 : cell z1 ls = aget (larr z1) idx) by (unfold cell; by rewrite Hloc).
      assert (C2 : cell z2 ls = aget (larr z2) idx) by (unfold cell; by rewrite <-Hlab, Hloc).
      rewrite merge_mask_get in Hm1, Hm2. apply fmap_Some in Hm1 as (v1 & Hg1 & ->). apply fmap_Some in Hm2 as (v2 & Hg2 & ->).
      change (nd_arr (lx z1)) with (larr z1) in Hg1. change (nd_arr (lx z2)) with (larr z2) in Hg2.
      rewrite <-C1 in Hg1. rewrite <-C2 in Hg2.
      assert (G1 : in_grid (llabel z1) ls) by (apply valid_cell_grid; eauto).
      assert (G2 : in_grid (llabel z2) ls) by (apply valid_cell_grid; eauto).
      destruct (mask_realigned y1 z1 ls v1) as [M1 _]; try done.
      destruct (mask_realigned y2 z2 ls v2) as [M2 _]; try done.
      unfold ldtype in M1, M2. rewrite M1, M2 in Hm. apply andb_true_iff in Hm as [P1 P2].
      by apply bool_decide_eq_true in P1, P2.
    - intros (ls & D1 & D2). exists ls.
      assert (Y1 : in_grid (llabel y1) ls).
      { apply valid_cell_grid; [done|]. destruct D1 as [v D1]. unfold data_at in D1. apply bind_Some in D1 as (? & -> & _). eauto. }
      assert (Y2 : in_grid (llabel y2) ls).
      { apply valid_cell_grid; [done|]. destruct D2 as [v D2]. unfold data_at in D2. apply bind_Some in D2 as (? & -> & _). eauto. }
      assert (G1 : in_grid (llabel z1) ls).
      { rewrite in_grid_alt in Y1, Y2 |- *. destruct Y1 as [Hlen Y1], Y2 as [_ Y2]. split; [congruence|].
        intros ax l u Hl Hu.
        destruct (lookup_lt_is_Some_2 (llabel y1) ax) as [l1 Hy1]. { rewrite <-Hlen. by eapply lookup_lt_Some. }
        destruct (lookup_lt_is_Some_2 (llabel y2) ax) as [l2 Hy2].
        { rewrite valid_ndim, <-Hnd', <-valid_ndim by done. by eapply lookup_lt_Some. }
        destruct (Hlt ax l1 l2 u u) as [_ HU]; try done.
        { rewrite <-valid_ndim by done. by eapply lookup_lt_Some. } { congruence. }
        unfold union_label in HU. case_decide; [subst; by eapply Y1|]. apply HU. left. by eapply Y1. }
      assert (G2 : in_grid (llabel z2) ls) by (by rewrite <-Hlab).
      destruct (proj2 (valid_cell_grid z1 ls Hvz1) G1) as [v1 C1]. destruct (proj2 (valid_cell_grid z2 ls Hvz2) G2) as [v2 C2].
      destruct (mask_realigned y1 z1 ls v1) as [M1 _]; try done.
      destruct (mask_realigned y2 z2 ls v2) as [M2 _]; try done.
      rewrite bool_decide_true in M1, M2 by done.
      unfold cell in C1, C2. rewrite <-Hlab in C2. destruct (locate (llabel z1) ls) as [idx|] eqn:Hloc; [|done].
      simpl in *. unfold mask_and. rewrite get_azip by done. rewrite !merge_mask_get.
      change (nd_arr (lx z1)) with (larr z1). change (nd_arr (lx z2)) with (larr z2). rewrite C1, C2. simpl.
      unfold ldtype in M1, M2. by rewrite M1, M2.
Qed.

Lemma merge_spec y1 y2 update z :
  valid y1 -> valid y2 -> no_inf y1 -> no_inf y2 -> larry_merge y1 y2 update = Ok z ->
  lndim y1 = lndim y2 /\ valid z /\ merge_labels y1 y2 z /\
  (ldtype z = ldtype y1 \/ ldtype z = missing_dtype (ldtype y1)) /\
  (forall ls, in_grid (llabel z) ls ->
     cell z ls = Some (match data_at y2 ls, data_at y1 ls with
                       | Some v, _ => cast_to (ldtype z) v
                       | None, Some v => cast_to (ldtype z) v
                       | None, None => missing_mark (ldtype z)
                       end)) /\
  (update = false -> forall ls, ~ (is_Some (data_at y1 ls) /\ is_Some (data_at y2 ls))).
Proof.
  intros Hv1 Hv2 Hn1 Hn2. unfold larry_merge. case_decide as Hnd; [done|]. rewrite bind_ok.
  assert (Hnd' : lndim y1 = lndim y2) by (destruct (decide (lndim y1 = lndim y2)); done).
  intros ([z1 z2] & HF & H). pose proof (merge_align_spec _ _ _ _ Hv1 Hv2 Hnd' HF) as Hal.
  pose proof (aligned_same_label _ _ _ _ _ Hv1 Hv2 Hnd' Hal) as Hlab.
  destruct Hal as (Hr1 & Hr2 & Hl1 & Hl2 & Hlt & _).
  pose proof (proj1 Hr1) as Hvz1. pose proof (proj1 Hr2) as Hvz2.
  split; [done|].
  assert (HML : forall x, merge_labels y1 y2 (Larry x (llabel z1))).
  { intros x. split; [done|]. intros ax l1 l2 u H1 H2 Hu. simpl in Hu.
    apply (Hlt ax l1 l2 u u); try done; [|congruence]. rewrite <-valid_ndim by done. by eapply lookup_lt_Some. }
  case_decide as Hkind; [|case_decide; [destruct (negb _ && _)|]; done].
  pose proof (merge_overlap _ _ _ _ Hv1 Hv2 Hn1 Hn2 Hnd' HF) as Hover.
  destruct (negb update && any_true (mask_and (merge_mask (lx z1)) (merge_mask (lx z2)))) eqn:Hov; [done|].
  assert (Hno : update = false -> forall ls, ~ (is_Some (data_at y1 ls) /\ is_Some (data_at y2 ls))).
  { intros ->. simpl in Hov. intros ls Hls. assert (any_true (mask_and (merge_mask (lx z1)) (merge_mask (lx z2))) = true) as E; [|congruence].
    apply Hover. eauto. }
  assert (Hcells : forall ls, in_grid (llabel z1) ls -> exists v1 v2,
    cell z1 ls = Some v1 /\ cell z2 ls = Some v2 /\
    mask_val (ldtype z2) v2 = bool_decide (is_Some (data_at y2 ls)) /\
    (forall u, data_at y2 ls = Some u -> v2 = cast_to (ldtype z2) u) /\
    (forall u, data_at y1 ls = Some u -> v1 = cast_to (ldtype z1) u) /\
    (data_at y1 ls = None -> v1 = missing_mark (ldtype z1))).
  { intros ls G1. assert (G2 : in_grid (llabel z2) ls) by (by rewrite <-Hlab).
    destruct (proj2 (valid_cell_grid z1 ls Hvz1) G1) as [v1 C1]. destruct (proj2 (valid_cell_grid z2 ls Hvz2) G2) as [v2 C2].
    destruct (mask_realigned y1 z1 ls v1) as (M1 & ? & ?); try done.
    destruct (mask_realigned y2 z2 ls v2) as (M2 & ? & ?); try done. exists v1, v2. done. }
  destruct (any_true (merge_mask (lx z2))) eqn:Hany.
  - apply bind_ok in H as (x & Hx & [= <-]).
    destruct (putmask_spec z1 z2 x Hvz1 Hvz2 Hlab Hx) as (Hdx & Hvx & Hsafe & Hcx).
    assert (Hdz : ldtype (Larry x (llabel z1)) = ldtype z1) by exact Hdx. rewrite Hdz.
    split; [done|]. split; [apply HML|]. split; [by destruct Hr1 as (_ & ? & _)|].
    split; [|done]. intros ls G1. simpl in G1. rewrite Hcx.
    destruct (Hcells ls G1) as (v1 & v2 & -> & -> & M2 & D2 & D1 & N1). simpl. rewrite M2. f_equal.
    destruct (data_at y2 ls) as [u|] eqn:E2; simpl.
    + rewrite (D2 u) by done. eapply same_kind_cases; [exact Hkind|by destruct Hr1 as (_ & ? & _)|by destruct Hr2 as (_ & ? & _)|done|].
      unfold data_at in E2. apply bind_Some in E2 as (w & Hw & E2). case_decide; [done|]. injection E2 as <-.
      by eapply valid_cell_typed.
    + destruct (data_at y1 ls) as [u|]; [by apply D1|by apply N1].
  - injection H as <-. split; [done|]. split.
    { specialize (HML (lx z1)). by destruct z1. }
    split; [by destruct Hr1 as (_ & ? & _)|]. split; [|done].
    intros ls G1. destruct (Hcells ls G1) as (v1 & v2 & C1 & C2 & M2 & D2 & D1 & N1). rewrite C1. f_equal.
    assert (data_at y2 ls = None) as ->.
    { destruct (data_at y2 ls) as [u|] eqn:E2; [|done].
      assert (any_true (merge_mask (lx z2)) = true) as E; [|congruence].
      apply (any_true_cell z2); [done|by apply merge_mask_wf, valid_wf|apply merge_mask_shape|].
      exists ls. rewrite merge_mask_lar, C2 by done. simpl. by rewrite M2, bool_decide_true by eauto. }
    destruct (data_at y1 ls) as [u|]; [by apply D1|by apply N1].
Qed.

Lemma merge_ndim y1 y2 update : lndim y1 <> lndim y2 -> larry_merge y1 y2 update = Err IndexError.
Proof. intros. unfold larry_merge. by rewrite decide_True. Qed.


Lemma putmask_ex z1 z2 : valid z2 -> safe_cast (ldtype z2) (ldtype z1) = true ->
  exists x, putmask_arr (lx z1) (merge_mask (lx z2)) (lx z2) = Ok x.
Proof.
  intros Hv2 Hsafe. unfold putmask_arr. unfold ldtype in Hsafe. rewrite Hsafe.
  destruct (mapR_total (store (nd_dtype (lx z1))) (data (nd_arr (lx z2)))) as [vs ->]; [|by eexists].
  intros v Hin. eexists. apply (store_safe _ (ldtype z2)); [done|].
  pose proof (valid_typed z2 Hv2) as Ht. by eapply Forall_forall in Ht.
Qed.

Lemma merge_ok y1 y2 update :
  valid y1 -> valid y2 -> no_inf y1 -> no_inf y2 -> lndim y1 = lndim y2 ->
  (forall i l1 l2, llabel y1 !! i = Some l1 -> llabel y2 !! i = Some l2 -> l1 = l2 \/ all_comparable (l1 ++ l2)) ->
  merge_dtypes (ldtype y1) (ldtype y2) ->
  (update = false -> forall ls, ~ (is_Some (data_at y1 ls) /\ is_Some (data_at y2 ls))) ->
  exists z, larry_merge y1 y2 update = Ok z.
Proof.
  intros Hv1 Hv2 Hn1 Hn2 Hnd Hs Hdt Hno. unfold larry_merge. rewrite decide_False by tauto.
  destruct (merge_align_ex y1 y2) as (z1 & z2 & HF); [done..|]. rewrite HF. simpl.
  pose proof (merge_overlap _ _ _ _ Hv1 Hv2 Hn1 Hn2 Hnd HF) as Hover.
  pose proof (merge_align_spec _ _ _ _ Hv1 Hv2 Hnd HF) as (Hr1 & Hr2 & _).
  rewrite decide_True.
  2:{ destruct Hdt as [[-> [-> |[-> | ->]]]|[[-> ->]|[-> ->]]]; auto. }
  destruct (negb update && any_true (mask_and (merge_mask (lx z1)) (merge_mask (lx z2)))) eqn:Hov.
  { apply andb_true_iff in Hov as [Hu Ho]. apply Hover in Ho as [ls Hls]. by destruct (Hno (proj1 (negb_true_iff _) Hu) ls). }
  destruct (any_true (merge_mask (lx z2))); [|by eexists].
  destruct (putmask_ex z1 z2) as [x ->]; [by destruct Hr2| |by eexists].
  destruct Hr1 as (_ & Hd1 & _), Hr2 as (_ & Hd2 & _).
  destruct Hdt as [[E1 [E2|[E2|E2]]]|[[E1 E2]|[E1 E2]]]; rewrite E1 in Hd1; rewrite E2 in Hd2;
    destruct Hd1 as [-> | ->], Hd2 as [-> | ->]; done.
Qed.

Lemma merge_conflict y1 y2 :
  valid y1 -> valid y2 -> no_inf y1 -> no_inf y2 -> lndim y1 = lndim y2 ->
  (forall i l1 l2, llabel y1 !! i = Some l1 -> llabel y2 !! i = Some l2 -> l1 = l2 \/ all_comparable (l1 ++ l2)) ->
  merge_dtypes (ldtype y1) (ldtype y2) ->
  (exists ls, is_Some (data_at y1 ls) /\ is_Some (data_at y2 ls)) ->
  larry_merge y1 y2 false = Err ValueError.
Proof.
  intros Hv1 Hv2 Hn1 Hn2 Hnd Hs Hdt Hls. unfold larry_merge. rewrite decide_False by tauto.
  destruct (merge_align_ex y1 y2) as (z1 & z2 & HF); [done..|]. rewrite HF. simpl.
  pose proof (merge_overlap _ _ _ _ Hv1 Hv2 Hn1 Hn2 Hnd HF) as Hover.
  rewrite decide_True.
  2:{ destruct Hdt as [[-> [-> |[-> | ->]]]|[[-> ->]|[-> ->]]]; auto. }
  by rewrite (proj2 Hover Hls).
Qed.
