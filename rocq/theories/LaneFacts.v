(** Lanes of labelled arrays. *)
From Verif Require Export Numeric OpsLarry OpsMore LarryMove.

Lemma with_label_delete ax x ls : ls !! ax = Some x -> with_label ax x (delete ax ls) = ls.
Proof. apply insert_remove_at. Qed.
Lemma with_label_delete_insert ax x ls : ax < length ls -> with_label ax x (delete ax ls) = <[ax := x]> ls.
Proof.
  intros Hax. rewrite <-(with_label_delete ax x (<[ax := x]> ls)) by (by apply list_lookup_insert).
  f_equal. symmetry. apply (remove_at_insert ax x ls).
Qed.

Lemma lane_of_unique y ax ls vs1 vs2 : lane_of y ax ls vs1 -> lane_of y ax ls vs2 -> vs1 = vs2.
Proof.
  intros (l & Hl & H1) (l' & Hl' & H2). assert (l' = l) as -> by congruence. clear Hl Hl'.
  revert vs2 H2. induction H1 as [|x v l vs Hv H1 IH]; intros vs2 H2; inversion H2; subst; [done|].
  f_equal; [congruence|auto].
Qed.
Lemma lane_of_length y ax ls vs l : lane_of y ax ls vs -> llabel y !! ax = Some l -> length vs = length l.
Proof. intros (l' & Hl' & H) Hl. rewrite Hl in Hl'. injection Hl' as <-. by apply Forall2_length in H. Qed.
Lemma lane_of_typed y ax ls vs : valid y -> lane_of y ax ls vs -> Forall (fun v => has_dtype (ldtype y) v = true) vs.
Proof.
  intros Hv (l & _ & H). induction H; constructor; [|done]. by eapply valid_cell_typed.
Qed.

(** The lane through a position. *)
Lemma lane_at_labels y ax idx ls vs :
  valid y -> labels_at (llabel y) idx ls -> lane (larr y) ax idx = Some vs -> lane_of y ax (delete ax ls) vs.
Proof.
  intros Hv Hl Hvs. pose proof (valid_nodup y Hv) as Hnd.
  apply lane_Some in Hvs as (n & Hn & Hlen & Hget).
  destruct (proj1 (valid_axis y ax n Hv) Hn) as (l & Hax & Hll). exists l. split; [done|].
  apply Forall2_same_length_lookup. split; [congruence|]. intros k x v Hx Hk.
  assert (Hkn : k < n) by (rewrite <-Hll; by eapply lookup_lt_Some).
  pose proof (labels_at_alt (llabel y) idx ls) as [Ha _]. destruct (Ha Hl) as (Hli & Hls & _).
  rewrite with_label_delete_insert by (rewrite Hls; by eapply lookup_lt_Some).
  rewrite (cell_at y (<[ax := k]> idx)); [rewrite Hget by done; done|done|].
  rewrite <-(list_insert_id _ _ _ Hax). by apply labels_at_insert.
Qed.

(** ** Length preserving functions of lanes *)
Lemma along_larry y ax dt (f : list val -> list val) :
  valid y -> ax < lndim y -> (forall l, length (f l) = length l) ->
  (forall l, Forall (fun v => has_dtype (ldtype y) v = true) l -> Forall (fun v => has_dtype dt v = true) (f l)) ->
  exists b, along f (larr y) ax = Some b /\
  let z := Larry (Nda dt b) (llabel y) in
  valid z /\
  forall ls, in_grid (llabel y) ls -> exists vs k, in_lane y ax ls vs k /\ cell z ls = f vs !! k.
Proof.
  intros Hv Hax Hlen Hty. pose proof (valid_wf y Hv) as Hwf. pose proof (valid_nodup y Hv) as Hnd.
  destruct (along_is_Some f (larr y) ax Hlen Hwf) as [b Hb].
  { apply lookup_lt_is_Some. exact Hax. }
  exists b. split; [done|]. intros z.
  destruct (along_Some f (larr y) b ax Hlen Hwf Hb) as (Hs & Hwb & Hget).
  assert (Hlane : forall idx ls, labels_at (llabel y) idx ls -> exists vs k,
    in_lane y ax ls vs k /\ aget b idx = f vs !! k /\ is_Some (aget b idx)).
  { intros idx ls Hl. assert (Hr : in_range (lshape y) idx) by (by eapply labels_in_range).
    destruct (Hget idx Hr) as (vs & k & Hvs & Hk & Hgb & Hsome). exists vs, k. split; [|done].
    split; [by eapply lane_at_labels|].
    assert (ax < length (llabel y)) as [l Hla]%lookup_lt_is_Some by (by rewrite valid_ndim).
    destruct (labels_at_lookup _ _ _ _ _ _ Hl Hla Hk) as (x & Hx & Hlx). eauto. }
  assert (Hz : valid z).
  { split_and!; [|apply Hv|unfold z, lshape, nd_shape; simpl; rewrite Hs; by apply valid_shape|done].
    unfold z; simpl. apply nda_wf_get; [done|]. simpl. intros idx v Hg.
    assert (in_range (length <$> llabel y) idx) as Hr.
    { rewrite valid_shape by done. apply get_in_range in Hg. by rewrite Hs in Hg. }
    destruct (labels_at_exists _ _ Hr) as [ls Hls].
    destruct (Hlane idx ls Hls) as (vs & k & [Hvs _] & Hgb & _).
    assert (Hft : Forall (fun v => has_dtype dt v = true) (f vs)) by (apply Hty; by eapply lane_of_typed).
    rewrite Forall_lookup in Hft. apply (Hft k). congruence. }
  split; [done|]. intros ls Hg. apply in_grid_labels_at in Hg as [idx Hl].
  destruct (Hlane idx ls Hl) as (vs & k & Hin & Hgb & _). exists vs, k. split; [done|].
  rewrite (cell_at z idx ls Hnd Hl). exact Hgb.
Qed.

(** ** Functions of lanes that remove the axis *)
Lemma reduce_larry y ax dt (f : list val -> val) :
  valid y -> ax < lndim y -> Forall (fun l => l <> []) (llabel y) ->
  (forall l, l <> [] -> Forall (fun v => has_dtype (ldtype y) v = true) l -> has_dtype dt (f l) = true) ->
  exists b, reduce f (larr y) ax = Some b /\ shape b = remove_at ax (lshape y) /\ nda_wf (Nda dt b) /\
  (forall idx ls, labels_at (remove_at ax (llabel y)) idx ls -> exists vs, vs <> [] /\ lane_of y ax ls vs /\ aget b idx = Some (f vs)).
Proof.
  intros Hv Hax Hne Hty. pose proof (valid_wf y Hv) as Hwf. pose proof (valid_nodup y Hv) as Hnd.
  destruct (reduce_is_Some f (larr y) ax Hwf) as [b Hb].
  { apply lookup_lt_is_Some. exact Hax. }
  exists b. split; [done|]. destruct (reduce_Some f (larr y) b ax Hwf Hb) as (Hs & Hwb & Hget).
  split; [done|].
  assert (exists l, llabel y !! ax = Some l) as [l Hl].
  { apply lookup_lt_is_Some. by rewrite valid_ndim. }
  assert (exists x, l !! 0 = Some x) as [x Hx].
  { rewrite Forall_lookup in Hne. specialize (Hne ax l Hl). destruct l; [done|]. eauto. }
  assert (Hlane : forall idx ls, labels_at (remove_at ax (llabel y)) idx ls -> exists vs, vs <> [] /\ lane_of y ax ls vs /\ aget b idx = Some (f vs)).
  { intros idx ls Hla.
    assert (Hi : labels_at (llabel y) (insert_at ax 0 idx) (insert_at ax x ls)).
    { rewrite <-(insert_remove_at ax l (llabel y)) by done. by apply labels_at_insert_at. }
    assert (Hr : in_range (lshape y) (insert_at ax 0 idx)) by (by eapply labels_in_range).
    destruct (lane_is_Some' (larr y) ax (insert_at ax 0 idx) Hwf) as [vs Hvs]; [by apply lookup_lt_is_Some|done|].
    exists vs. pose proof (lane_at_labels y ax _ _ vs Hv Hi Hvs) as Hlo.
    assert (Hlen : ax <= length ls).
    { apply labels_at_alt in Hla as (_ & -> & _). rewrite remove_at_length; rewrite ?valid_ndim by done; lia. }
    assert (Hdel : delete ax (insert_at ax x ls) = ls) by (by apply (remove_insert_at ax x ls)).
    rewrite Hdel in Hlo.
    split_and!; [|done|].
    - intros ->. apply (lane_of_length _ _ _ _ l) in Hlo; [|done]. by destruct l.
    - rewrite Hget, Hvs; [done|].
      apply labels_at_alt in Hla as Hla'. destruct Hla' as (Hli & _ & _).
      pose proof (in_range_remove_at (lshape y) (insert_at ax 0 idx) ax (length l)) as Hrr.
      rewrite remove_insert_at in Hrr. { apply Hrr; [|done]. by apply (valid_axis y ax _ Hv); eauto. }
      rewrite Hli, remove_at_length; rewrite ?valid_ndim by done; lia. }
  split; [|done]. apply nda_wf_get; [done|]. simpl. intros idx v Hg.
  assert (in_range (length <$> remove_at ax (llabel y)) idx) as Hr.
  { rewrite remove_at_fmap, valid_shape by done. apply get_in_range in Hg. by rewrite Hs in Hg. }
  destruct (labels_at_exists _ _ Hr) as [ls Hls]. destruct (Hlane idx ls Hls) as (vs & Hvn & Hvs & Hgb).
  assert (v = f vs) as -> by congruence. apply Hty; [done|]. by eapply lane_of_typed.
Qed.

(** The result as larry or scalar. *)
Lemma reduce_out y ax dt (f : list val -> val) :
  valid y -> ax < lndim y -> Forall (fun l => l <> []) (llabel y) ->
  (forall l, l <> [] -> Forall (fun v => has_dtype (ldtype y) v = true) l -> has_dtype dt (f l) = true) ->
  exists b, reduce f (larr y) ax = Some b /\
  (length (llabel y) = 1 /\ (exists vs, lane_of y ax [] vs /\ vs <> [] /\
     as_out (Nda dt b) (remove_at ax (llabel y)) = Ok (OVal (f vs))) \/
   1 < length (llabel y) /\ exists z, z = Larry (Nda dt b) (delete ax (llabel y)) /\
     as_out (Nda dt b) (remove_at ax (llabel y)) = Ok (OLar z) /\ valid z /\
     forall ls, in_grid (llabel z) ls -> exists vs, vs <> [] /\ lane_of y ax ls vs /\ cell z ls = Some (f vs)).
Proof.
  intros Hv Hax Hne Hty. destruct (reduce_larry y ax dt f Hv Hax Hne Hty) as (b & Hb & Hs & Hwf & Hget).
  exists b. split; [done|]. rewrite <-valid_ndim in Hax by done.
  destruct (decide (length (llabel y) = 1)) as [H1|H1].
  - left. split; [done|]. assert (ax = 0) as -> by lia. destruct (llabel y) as [|l [|]] eqn:HL; try done.
    destruct (Hget [] []) as (vs & Hvn & Hvs & Hgb); [constructor|]. exists vs. split_and!; [done..|].
    unfold as_out, nd_shape. simpl. rewrite Hs, <-valid_shape, HL by done. simpl. by rewrite Hgb.
  - right. split; [lia|]. eexists. split; [done|].
    assert (Hlen : length (remove_at ax (llabel y)) <> 0) by (rewrite remove_at_length by done; lia).
    assert (Hs' : shape b = length <$> remove_at ax (llabel y)) by (by rewrite remove_at_fmap, valid_shape).
    split.
    { change (delete ax (llabel y)) with (remove_at ax (llabel y)). unfold as_out, nd_shape. simpl. rewrite Hs'. destruct (remove_at ax (llabel y)) eqn:E; [done|]. done. }
    assert (Hz : valid (Larry (Nda dt b) (delete ax (llabel y)))).
    { split_and!; simpl; [done| | |].
      - intros E. change (remove_at ax (llabel y) = []) in E. rewrite E in Hlen. done.
      - unfold lshape, nd_shape. simpl. by rewrite Hs'.
      - apply Forall_delete. by apply valid_nodup. }
    split; [done|]. simpl. intros ls Hg. apply in_grid_labels_at in Hg as [idx Hl].
    destruct (Hget idx ls Hl) as (vs & Hvn & Hvs & Hgb). exists vs. split_and!; [done..|].
    rewrite (cell_at _ idx ls); [done|by apply valid_nodup|done].
Qed.

(** All values. *)
Fixpoint grid (label : list (list lab)) : list (list lab) :=
  match label with
  | [] => [[]]
  | l :: label' => l ≫= fun x => cons x <$> grid label'
  end.
Lemma elem_of_grid label ls : ls ∈ grid label <-> in_grid label ls.
Proof.
  unfold in_grid. revert ls. induction label as [|l label IH]; intros ls; simpl.
  - rewrite elem_of_list_singleton. split; [intros ->; constructor|by inversion 1].
  - rewrite elem_of_list_bind. split.
    + intros (x & Hx & Hl). apply elem_of_list_fmap in Hx as (ls' & -> & H%IH). by constructor.
    + inversion 1; subst. eexists. split; [|done]. apply elem_of_list_fmap. eexists. split; [done|]. by apply IH.
Qed.
Lemma NoDup_grid label : Forall NoDup label -> NoDup (grid label).
Proof.
  induction 1 as [|l label Hl _ IH]; simpl; [apply NoDup_singleton|].
  clear -Hl IH. induction Hl as [|x l Hx Hl IHl]; simpl; [constructor|].
  apply NoDup_app. split_and!; [apply NoDup_fmap_2; [|done]; by intros ?? [= ?]| |done].
  intros ls H1 H2. apply elem_of_list_fmap in H1 as (? & -> & _).
  apply elem_of_list_bind in H2 as (x' & H2 & ?). apply elem_of_list_fmap in H2 as (? & [= -> _] & _). done.
Qed.
Lemma grid_indices label : Forall2 (labels_at label) (indices (length <$> label)) (grid label).
Proof.
  induction label as [|l label IH]; simpl.
  - constructor; [constructor|done].
  - assert (H : forall l0, Forall2 (labels_at (l :: label))
       (seq (length l - length l0) (length l0) ≫= fun i => cons i <$> indices (length <$> label)) (l0 ≫= fun x => cons x <$> grid label)
       \/ l0 <> drop (length l - length l0) l).
    { induction l0 as [|x l0 IHl]; [left; constructor|].
      destruct (decide (x :: l0 = drop (length l - S (length l0)) l)) as [E|]; [|by right].
      assert (Hlt : length l - S (length l0) < length l).
      { apply (f_equal length) in E. rewrite drop_length in E. simpl in E. lia. }
      assert (Hll : S (length l0) <= length l).
      { apply (f_equal length) in E. rewrite drop_length in E. simpl in E. lia. }
      assert (Hx : l !! (length l - S (length l0)) = Some x).
      { rewrite <-(Nat.add_0_r (length l - _)), <-lookup_drop, <-E. done. }
      assert (E0 : l0 = drop (length l - length l0) l).
      { replace (length l - length l0) with (S (length l - S (length l0))) by lia.
        rewrite (drop_S l x) in E by done. by injection E. }
      destruct IHl as [IHl|]; [|done]. left. simpl.
      apply Forall2_app.
      - rewrite Forall2_fmap. eapply Forall2_impl; [exact IH|]. intros idx ls Hl. by constructor.
      - replace (S (length l - S (length l0))) with (length l - length l0) by lia. exact IHl. }
    destruct (H l) as [H0|H0]; rewrite Nat.sub_diag in H0; [done|]. by rewrite drop_0 in H0.
Qed.
Lemma data_values y : valid y -> values_of y (data (larr y)).
Proof.
  intros Hv. exists (grid (llabel y)). split_and!; [by apply NoDup_grid, valid_nodup|intros; apply elem_of_grid|].
  assert (Hd : mapM (aget (larr y)) (indices (lshape y)) = Some (data (larr y))).
  { pose proof (valid_wf y Hv) as Hwf. apply mapM_Some_lookup. split; [rewrite indices_length; exact Hwf|].
    intros i idx Hi. apply indices_lookup in Hi as [Hr Hi]. unfold aget. rewrite decide_True by done. by rewrite <-Hi. }
  rewrite <-valid_shape in Hd by done. apply mapM_Some in Hd.
  pose proof (grid_indices (llabel y)) as Hg. revert Hd Hg.
  generalize (indices (length <$> llabel y)) (grid (llabel y)) (data (larr y)). intros is gs ds Hd. revert gs.
  induction Hd as [|idx v is ds Hi Hd IH]; intros gs Hg; inversion Hg; subst; constructor; [|auto].
  rewrite (cell_at y idx); [done|by apply valid_nodup|done].
Qed.
