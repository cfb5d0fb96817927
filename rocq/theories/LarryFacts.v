(** Proofs about construction, element access and slice selection. *)
From Verif Require Export Larry SpecFacts.

(** * Construction *)
Lemma check_axis_ok n l : check_axis n l = Ok () <-> n = length l /\ NoDup l.
Proof.
  unfold check_axis. case_decide as H1; [naive_solver|].
  destruct (py_nodup l) eqn:E.
  - apply py_nodup_spec in E. split; [|done]. intros _. split; [lia|done].
  - apply py_nodup_false in E. naive_solver.
Qed.
Lemma check_axis_err n l e : check_axis n l = Err e -> e = ValueError.
Proof. unfold check_axis. case_decide; [naive_solver|]. destruct (py_nodup l); naive_solver. Qed.
Lemma check_axes_ok sh label :
  length sh = length label ->
  check_axes sh label = Ok () <-> length <$> label = sh /\ Forall NoDup label.
Proof.
  revert label; induction sh as [|n sh IH]; intros [|l label] Hl; try discriminate.
  - simpl. naive_solver.
  - cbn [check_axes]. rewrite bind_ok. injection Hl as Hl. csimpl. split.
    + intros ([] & H1%check_axis_ok & H2%IH); [|done]. destruct H1, H2. subst. auto.
    + intros [H1 H2]. injection H1 as H1 H1'. apply Forall_cons in H2 as [H2 H2'].
      exists (). rewrite check_axis_ok, IH by done. auto.
Qed.
Lemma check_axes_err sh label e : check_axes sh label = Err e -> e = ValueError.
Proof.
  revert label; induction sh as [|n sh IH]; intros [|l label]; simpl; try done.
  intros [H|(? & _ & H)]%bind_err; [by eapply check_axis_err|by eapply IH].
Qed.

Lemma make_some_ok x label y :
  make x (Some label) = Ok y <->
  y = Larry x label /\ label <> [] /\ length <$> label = nd_shape x /\ Forall NoDup label.
Proof.
  unfold make, nd_ndim. case_decide as H1.
  { split; [done|]. intros (_ & _ & Hs & _). apply (f_equal length) in Hs.
    rewrite fmap_length in Hs. congruence. }
  case_decide as H2.
  { split; [done|]. intros (_ & Hne & Hs & _). rewrite <-Hs, fmap_length in H2.
    by destruct label. }
  rewrite bind_ok. split.
  - intros ([] & H3%check_axes_ok & [= <-]); [|done]. destruct H3. split_and!; [done| |done..].
    intros ->. by rewrite H1 in H2.
  - intros (-> & _ & H3 & H4). exists (). rewrite check_axes_ok by done. auto.
Qed.
Lemma make_err x label e : make x label = Err e -> e = ValueError.
Proof.
  unfold make. case_decide; [naive_solver|]. case_decide; [naive_solver|].
  intros [H'|(? & _ & [=])]%bind_err. by eapply check_axes_err.
Qed.
Lemma make_some_err x label :
  ~ (label <> [] /\ length <$> label = nd_shape x /\ Forall NoDup label) ->
  make x (Some label) = Err ValueError.
Proof.
  intros H. destruct (make x (Some label)) as [y|e] eqn:E.
  - apply make_some_ok in E. naive_solver.
  - by apply make_err in E as ->.
Qed.
Lemma make_some_valid x label y :
  nda_wf x -> make x (Some label) = Ok y <-> y = Larry x label /\ valid (Larry x label).
Proof. intros Hx. rewrite make_some_ok. unfold valid, lshape. simpl. naive_solver. Qed.

Lemma range_label_length n : length (range_label n) = n.
Proof. unfold range_label. by rewrite fmap_length, seq_length. Qed.
Lemma range_label_lookup n i : range_label n !! i = if decide (i < n) then Some (LInt (Z.of_nat i)) else None.
Proof.
  unfold range_label. rewrite list_lookup_fmap. case_decide.
  - by rewrite lookup_seq_lt.
  - by rewrite lookup_seq_ge by lia.
Qed.
Lemma range_label_nodup n : NoDup (range_label n).
Proof.
  unfold range_label. apply NoDup_fmap_2; [|apply NoDup_seq]. intros i j [= ?]. lia.
Qed.
Lemma make_none_ok x y :
  make x None = Ok y <-> nd_ndim x <> 0 /\ y = Larry x (range_label <$> nd_shape x).
Proof.
  change (make x None) with (make x (Some (range_label <$> nd_shape x))).
  rewrite make_some_ok. unfold nd_ndim. split.
  - intros (-> & Hne & _). split; [|done]. by destruct (nd_shape x).
  - intros [Hn ->]. split_and!; [done|by destruct (nd_shape x)| |].
    + rewrite <-list_fmap_compose. rewrite <-(list_fmap_id (nd_shape x)) at 2.
      apply list_fmap_ext. intros _ n _. apply range_label_length.
    + apply Forall_fmap, Forall_true. intros n. apply range_label_nodup.
Qed.
Lemma make_none_err x : nd_ndim x = 0 -> make x None = Err ValueError.
Proof.
  intros H. destruct (make x None) as [y|e] eqn:E; [|by apply make_err in E as ->].
  apply make_none_ok in E as [? _]. done.
Qed.
Lemma make_none_valid x y : nda_wf x -> make x None = Ok y -> valid y.
Proof.
  intros Hx H. change (make x None) with (make x (Some (range_label <$> nd_shape x))) in H.
  by apply make_some_valid in H as [-> ?].
Qed.

(** * Axis arguments *)
Lemma py_axis_ok y axis ax :
  py_axis y axis = Ok ax <->
  ax < length (llabel y) /\ (axis = Z.of_nat ax \/ axis = (Z.of_nat ax - Z.of_nat (length (llabel y)))%Z).
Proof. unfold py_axis. rewrite of_opt_ok. apply py_index_Some. Qed.
Lemma py_axis_is y axis ax : py_axis y axis = Ok ax <-> axis_is y axis ax.
Proof. apply py_axis_ok. Qed.
Lemma axis_label_ok y ax l : axis_label y ax = Ok l <-> llabel y !! ax = Some l.
Proof. unfold axis_label. apply of_opt_ok. Qed.
Lemma axis_label_exists y axis ax : py_axis y axis = Ok ax -> exists l, axis_label y ax = Ok l /\ llabel y !! ax = Some l.
Proof.
  intros [H _]%py_axis_ok. apply lookup_lt_is_Some in H as [l Hl]. exists l.
  by rewrite axis_label_ok.
Qed.
Lemma py_axis_nat y (ax : nat) : ax < length (llabel y) -> py_axis y (Z.of_nat ax) = Ok ax.
Proof. intros. apply py_axis_ok. lia. Qed.

(** The axis meant by an axis argument, for the specification side. *)
Lemma py_axis_err y axis e : py_axis y axis = Err e -> e = IndexError.
Proof. unfold py_axis. by intros [_ ->]%of_opt_err. Qed.

(** * labelindex, get, set *)
Lemma labelindex_exact y name axis i :
  valid y ->
  labelindex y name (Some axis) true = Ok i <->
  exists ax l, py_axis y axis = Ok ax /\ llabel y !! ax = Some l /\ l !! i = Some name.
Proof.
  intros Hv. unfold labelindex. simpl. pose proof (valid_ndim y Hv) as Hn. case_decide as Hax.
  - split; [done|]. intros (ax & l & Hp & _). apply py_axis_ok in Hp. lia.
  - rewrite bind_ok. split.
    + intros (ax & Hp & (l & Hl%axis_label_ok & Hi)%bind_ok).
      destruct (index_of name l) as [j|] eqn:E; [|done]. injection Hi as <-.
      exists ax, l. split_and!; [done..|]. by apply index_of_Some in E as [? _].
    + intros (ax & l & Hp & Hl & Hi). exists ax. split; [done|]. apply axis_label_ok in Hl as Hl'.
      rewrite Hl'. simpl. erewrite index_of_lookup; [done| |done].
      exact (Forall_lookup_1 _ _ _ _ (valid_nodup y Hv) Hl).
Qed.
Lemma labelindex_exact_err y name axis e :
  labelindex y name (Some axis) true = Err e -> e = IndexError.
Proof.
  unfold labelindex. simpl. case_decide; [naive_solver|].
  intros [H'|(ax & _ & [H'|(l & _ & H')]%bind_err)]%bind_err.
  - by apply py_axis_err in H'.
  - unfold axis_label in H'. by apply of_opt_err in H' as [_ ->].
  - destruct (index_of name l); naive_solver.
Qed.

Lemma label_tuple_index_ok y label idx :
  valid y -> label_tuple_index y label = Ok idx <-> labels_at (llabel y) idx label.
Proof.
  intros Hv. pose proof (valid_ndim y Hv) as Hn. unfold label_tuple_index. case_decide as Hl.
  - split; [done|]. intros [_ H]%labels_at_lengths. congruence.
  - rewrite mapR_ok. split.
    + intros H. pose proof (Forall2_length _ _ _ H) as Hlen. rewrite seq_length in Hlen.
      apply labels_at_alt. split_and!; [lia..|].
      intros i axis j x Hax Hj Hx.
      assert (seq 0 (lndim y) !! i = Some i) as Hs by (apply lookup_seq_lt; apply lookup_lt_Some in Hax; lia).
      pose proof (Forall2_lookup_lr _ _ _ _ _ _ H Hs Hj) as Hi. simpl in Hi. rewrite Hx in Hi. simpl in Hi.
      apply labelindex_exact in Hi as (ax & l & Hp & Hl' & ?); [|done].
      apply py_axis_ok in Hp as [_ [?|?]]; [|apply lookup_lt_Some in Hl', Hax; lia].
      assert (ax = i) as -> by lia. congruence.
    + intros H. pose proof (labels_at_lengths _ _ _ H) as [H1 H2].
      apply Forall2_same_length_lookup. split; [rewrite seq_length; lia|].
      intros i k j [-> Hk]%lookup_seq Hj. simpl.
      destruct (labels_at_lookup _ _ _ i (llabel y !!! i) j H) as (l & Hl1 & Hl2); [|done|].
      { apply list_lookup_lookup_total_lt. lia. }
      rewrite Hl1. simpl. apply labelindex_exact; [done|]. exists i, (llabel y !!! i).
      split_and!; [apply py_axis_nat; lia|apply list_lookup_lookup_total_lt; lia|done].
Qed.

Lemma larry_get_ok y ls v : valid y -> larry_get y ls = Ok v <-> cell y ls = Some v.
Proof.
  intros Hv. unfold larry_get. rewrite bind_ok, cell_Some by (by apply valid_nodup).
  setoid_rewrite label_tuple_index_ok; [|done]. setoid_rewrite of_opt_ok. done.
Qed.
Lemma label_tuple_index_count y label : length label <> lndim y -> label_tuple_index y label = Err ValueError.
Proof. intros. unfold label_tuple_index. by case_decide. Qed.
Lemma mapR_err_all {X Y} (f : X -> res Y) l e e' :
  (forall x e, x ∈ l -> f x = Err e -> e = e') -> mapR f l = Err e -> e = e'.
Proof.
  induction l as [|x l IH]; simpl; [done|]. intros H. destruct (f x) as [z|e0] eqn:E.
  - destruct (mapR f l) eqn:E'; [done|]. intros [= <-]. apply IH; [|done]. intros. eapply H; [by right|done].
  - intros [= <-]. eapply H; [left|done].
Qed.
Lemma label_tuple_index_unknown y label :
  valid y -> length label = lndim y -> ~ in_grid (llabel y) label -> label_tuple_index y label = Err IndexError.
Proof.
  intros Hv Hl Hg. destruct (label_tuple_index y label) as [idx|e] eqn:E.
  - apply label_tuple_index_ok in E; [|done]. exfalso. apply Hg, in_grid_labels_at. eauto.
  - f_equal. unfold label_tuple_index in E. case_decide; [done|]. eapply mapR_err_all; [|done].
    intros i e' _ [H'|(? & _ & H')]%bind_err; [by apply of_opt_err in H' as [_ ->]|].
    by apply labelindex_exact_err in H'.
Qed.

Lemma store_typed dt v w : store dt v = Ok w -> has_dtype dt w = true.
Proof. destruct dt, v as [[]| | | | |]; simpl; try done; by intros [= <-]. Qed.
Lemma store_id dt v : has_dtype dt v = true -> dt <> DObj -> store dt v = Ok v.
Proof. destruct dt, v as [[]| | | | |]; done. Qed.
Lemma store_same dt v : has_dtype dt v = true -> store dt v = Ok v.
Proof. destruct dt, v as [[]| | | | |]; done. Qed.

Lemma get_arr_set {A} (a : arr A) idx idx' v :
  arr_wf a -> in_range (shape a) idx ->
  aget (arr_set a idx v) idx' = if decide (idx' = idx) then Some v else aget a idx'.
Proof.
  intros Hwf Hr. unfold aget. simpl. destruct (decide (idx' = idx)) as [->|Hd].
  - rewrite decide_True by done. apply list_lookup_insert. rewrite Hwf. by apply ravel_lt.
  - case_decide; [|done]. apply list_lookup_insert_ne. intros He. apply Hd. symmetry. by eapply ravel_inj.
Qed.
Lemma arr_set_wf {A} (a : arr A) idx v : arr_wf a -> arr_wf (arr_set a idx v).
Proof. unfold arr_wf, asize. simpl. by rewrite insert_length. Qed.

Lemma larry_set_spec y ls v y' :
  valid y -> larry_set y ls v = Ok y' ->
  valid y' /\ llabel y' = llabel y /\ lshape y' = lshape y /\ ldtype y' = ldtype y /\
  exists w, store (ldtype y) v = Ok w /\ cell y' ls = Some w /\ forall ls', ls' <> ls -> cell y' ls' = cell y ls'.
Proof.
  intros Hv. unfold larry_set. intros (idx & Hi & (w & Hw & H)%bind_ok)%bind_ok.
  apply label_tuple_index_ok in Hi; [|done]. case_decide as Hr; [|done]. injection H as <-.
  assert (valid (Larry (Nda (ldtype y) (arr_set (larr y) idx w)) (llabel y))) as Hv'.
  { destruct Hv as ([Hwf Ht] & ? & ? & ?). split_and!; try done. split; simpl.
    - by apply arr_set_wf.
    - apply Forall_insert; [done|]. by eapply store_typed. }
  split_and!; try done. exists w. split_and!; [done| |].
  - rewrite (cell_at _ idx ls); [|by apply valid_nodup|done].
    unfold larr at 1. simpl. rewrite get_arr_set by (done || by apply valid_wf). by rewrite decide_True.
  - intros ls' Hne. apply option_eq. intros u. rewrite !cell_Some by (by apply valid_nodup). simpl.
    unfold larr at 1. simpl. setoid_rewrite get_arr_set; [|by apply valid_wf|done]. split.
    + intros (idx' & Hl & Hg). case_decide; [subst|eauto]. destruct Hne. by eapply labels_at_fun.
    + intros (idx' & Hl & Hg). exists idx'. split; [done|]. case_decide; [subst|done].
      destruct Hne. by eapply labels_at_fun.
Qed.
Lemma larry_set_ok y ls v w :
  valid y -> in_grid (llabel y) ls -> store (ldtype y) v = Ok w -> exists y', larry_set y ls v = Ok y'.
Proof.
  intros Hv [idx Hl]%in_grid_labels_at Hw. unfold larry_set.
  assert (label_tuple_index y ls = Ok idx) as -> by (by apply label_tuple_index_ok). simpl.
  rewrite Hw. simpl. rewrite decide_True; [eauto|]. rewrite <-valid_shape by done. by eapply labels_at_in_range.
Qed.
Lemma larry_get_set_errors y ls v :
  valid y ->
  (length ls <> lndim y -> larry_get y ls = Err ValueError /\ larry_set y ls v = Err ValueError) /\
  (length ls = lndim y -> ~ in_grid (llabel y) ls ->
   larry_get y ls = Err IndexError /\ larry_set y ls v = Err IndexError).
Proof.
  intros Hv. unfold larry_get, larry_set. split.
  - intros. by rewrite label_tuple_index_count.
  - intros. by rewrite label_tuple_index_unknown.
Qed.

Lemma larry_fill_spec y v y' :
  valid y -> larry_fill y v = Ok y' ->
  valid y' /\ llabel y' = llabel y /\ ldtype y' = ldtype y /\
  exists w, store (ldtype y) v = Ok w /\ forall ls, in_grid (llabel y) ls -> cell y' ls = Some w.
Proof.
  intros Hv. unfold larry_fill. intros (w & Hw & [= <-])%bind_ok.
  assert (valid (Larry (Nda (ldtype y) (full (lshape y) w)) (llabel y))) as Hv'.
  { destruct Hv as ([Hwf Ht] & ? & ? & ?). split_and!; try done. split; simpl.
    - apply full_wf.
    - apply Forall_replicate. by eapply store_typed. }
  split_and!; try done. exists w. split; [done|]. intros ls [idx Hl]%in_grid_labels_at.
  rewrite (cell_at _ idx ls); [|by apply valid_nodup|done]. unfold larr. simpl.
  rewrite get_full, decide_True; [done|]. rewrite <-valid_shape by done. by eapply labels_at_in_range.
Qed.

(** * positions *)
Lemma positions_from_ok {A} n (f : A -> res bool) l idx :
  positions_from n f l = Ok idx ->
  StronglySorted lt idx /\ (forall i, i ∈ idx <-> exists x, n <= i /\ l !! (i - n) = Some x /\ f x = Ok true) /\
  Forall (fun x => exists b, f x = Ok b) l /\
  mapM (fun i => l !! (i - n)) idx = Some (filter (fun x => f x = Ok true) l).
Proof.
  revert n idx; induction l as [|x l IH]; intros n idx; simpl.
  { intros [= <-]. split_and!; [constructor| |constructor|done].
    intros i. split; [by intros ?%elem_of_nil|]. by intros (? & _ & ? & _). }
  intros (b & Hb & (r & Hr & [= <-])%bind_ok)%bind_ok. apply IH in Hr as (Hs & Hin & Ht & Hm).
  assert (Forall (fun i => n < i) r) as Hgt.
  { apply Forall_forall. intros i Hi. apply Hin in Hi as (? & ? & _). lia. }
  assert (mapM (fun i => (x :: l) !! (i - n)) r = Some (filter (fun x => f x = Ok true) l)) as Hm'.
  { rewrite <-Hm. apply Forall_mapM_ext. eapply Forall_impl; [exact Hgt|]. simpl. intros i Hi.
    by replace (i - n) with (S (i - S n)) by lia. }
  split_and!.
  - destruct b; [|done]. constructor; [done|]. done.
  - intros i. transitivity (i ∈ (if b then [n] else []) \/ i ∈ r).
    { destruct b; [by rewrite elem_of_cons, elem_of_list_singleton|]. rewrite elem_of_nil. naive_solver. }
    rewrite Hin. split.
    + intros [Hi|(z & ? & Hz & ?)].
      * destruct b; [|by apply elem_of_nil in Hi]. apply elem_of_list_singleton in Hi as ->.
        exists x. rewrite Nat.sub_diag. auto.
      * exists z. replace (i - n) with (S (i - S n)) by lia. auto with lia.
    + intros (z & Hi & Hz & Hf). destruct (decide (i = n)) as [->|].
      * left. rewrite Nat.sub_diag in Hz. injection Hz as ->.
        rewrite Hf in Hb. injection Hb as <-. by left.
      * right. exists z. replace (i - n) with (S (i - S n)) in Hz by lia. auto with lia.
  - constructor; eauto.
  - destruct b.
    + rewrite filter_cons_True by done. simpl. rewrite Nat.sub_diag. simpl. by rewrite Hm'.
    + rewrite filter_cons_False by congruence. done.
Qed.
Lemma positions_ok {A} (f : A -> res bool) l idx :
  positions f l = Ok idx ->
  StronglySorted lt idx /\ (forall i, i ∈ idx <-> exists x, l !! i = Some x /\ f x = Ok true) /\
  mapM (l !!.) idx = Some (filter (fun x => f x = Ok true) l).
Proof.
  intros (Hs & Hin & _ & Hm)%positions_from_ok. split_and!; [done| |].
  - intros i. rewrite Hin. rewrite Nat.sub_0_r. naive_solver lia.
  - rewrite <-Hm. apply mapM_ext. intros i. by rewrite Nat.sub_0_r.
Qed.
Lemma positions_from_total {A} n (f : A -> res bool) l :
  (forall x, x ∈ l -> exists b, f x = Ok b) -> exists idx, positions_from n f l = Ok idx.
Proof.
  revert n; induction l as [|x l IH]; intros n H; simpl; [eauto|].
  destruct (H x) as [b ->]; [left|]. simpl. destruct (IH (S n)) as [idx ->]; [|eauto].
  intros. apply H. by right.
Qed.
Lemma positions_total {A} (f : A -> res bool) l :
  (forall x, x ∈ l -> exists b, f x = Ok b) -> exists idx, positions f l = Ok idx.
Proof. apply positions_from_total. Qed.
Lemma positions_err {A} (f : A -> res bool) l e :
  positions f l = Err e -> exists x, x ∈ l /\ f x = Err e.
Proof.
  unfold positions. generalize 0. induction l as [|x l IH]; intros n; simpl; [done|].
  intros [H|(b & Hb & [H|(r & Hr & H)]%bind_err)]%bind_err; [|apply IH in H|done].
  - exists x. split; [left|done].
  - destruct H as (z & ? & ?). exists z. split; [by right|done].
Qed.

(** Comparisons that do not raise. *)
Lemma lab_leR_ok a b r : lab_leR a b = Ok r -> (r = true <-> lab_le a b).
Proof. unfold lab_leR. destruct (_ || _); [|done]. intros [= <-]. apply bool_decide_eq_true. Qed.
Lemma lab_ltR_ok a b r : lab_ltR a b = Ok r -> (r = true <-> lab_lt a b).
Proof. unfold lab_ltR. destruct (_ || _); [|done]. intros [= <-]. apply bool_decide_eq_true. Qed.
Lemma lab_leR_total a b : a = b \/ comparable a b = true -> lab_leR a b = Ok (bool_decide (lab_le a b)).
Proof.
  unfold lab_leR. intros [->|H]; [by rewrite bool_decide_eq_true_2|]. by rewrite H, orb_true_r.
Qed.
Lemma lab_ltR_total a b : a = b \/ comparable a b = true -> lab_ltR a b = Ok (bool_decide (lab_lt a b)).
Proof.
  unfold lab_ltR. intros [->|H]; [by rewrite bool_decide_eq_true_2|]. by rewrite H, orb_true_r.
Qed.

(** * labelindex with exact=False *)
Lemma last_sorted_max (idx : list nat) i :
  StronglySorted lt idx -> last idx = Some i <-> i ∈ idx /\ forall j, j ∈ idx -> j <= i.
Proof.
  revert i. induction idx as [|k idx IH]; intros i Hs.
  { simpl. split; [done|]. by intros [?%elem_of_nil _]. }
  apply StronglySorted_inv in Hs as [Hs Hk]. rewrite Forall_forall in Hk.
  destruct idx as [|k' idx].
  - simpl. split; [intros [= <-]; split; [left|intros j ->%elem_of_list_singleton; lia]|].
    by intros [->%elem_of_list_singleton _].
  - rewrite last_cons_cons, IH by done. split.
    + intros [Hi Hm]. split; [by right|]. intros j [->|Hj]%elem_of_cons; [|auto].
      apply Hk in Hi. lia.
    + intros [[->|Hi]%elem_of_cons Hm].
      * assert (k' <= k) by (apply Hm; right; left). assert (k < k') by (apply Hk; left). lia.
      * split; [done|]. intros j Hj. apply Hm. by right.
Qed.
(** What it computes: the last position whose label is <= name. *)
Lemma labelindex_inexact y name axis ax l i :
  valid y -> py_axis y axis = Ok ax -> llabel y !! ax = Some l -> name ∉ l ->
  (forall z, z ∈ l -> z = name \/ comparable z name = true) ->
  labelindex y name (Some axis) false = Ok i <->
  exists m, l !! i = Some m /\ lab_le m name /\ forall j m', l !! j = Some m' -> lab_le m' name -> j <= i.
Proof.
  intros Hv Hp Hl Hni Hc. unfold labelindex. simpl. pose proof (valid_ndim y Hv) as Hn.
  case_decide as Hax; [apply py_axis_ok in Hp; lia|]. rewrite Hp. simpl.
  apply axis_label_ok in Hl as Hl'. rewrite Hl'. simpl.
  assert (index_of name l = None) as -> by (by apply index_of_None).
  destruct (positions_total (fun z => lab_leR z name) l) as [idx Hidx].
  { intros z Hz. rewrite lab_leR_total by auto. eauto. }
  rewrite Hidx. simpl. rewrite of_opt_ok. apply positions_ok in Hidx as (Hs & Hin & _).
  rewrite last_sorted_max by done. rewrite Hin.
  assert (forall z, z ∈ l -> lab_leR z name = Ok true <-> lab_le z name) as Hz.
  { intros z Hz. rewrite lab_leR_total by auto. split; [|intros; by rewrite bool_decide_eq_true_2].
    intros [= H]. by apply bool_decide_eq_true in H. }
  split.
  - intros [(m & Hm & Hle) Hmax]. exists m. split_and!; [done| |].
    + apply Hz; [by eapply elem_of_list_lookup_2|done].
    + intros j m' Hj Hle'. apply Hmax, Hin. exists m'. split; [done|]. apply Hz; [by eapply elem_of_list_lookup_2|done].
  - intros (m & Hm & Hle & Hmax). split.
    + exists m. split; [done|]. apply Hz; [by eapply elem_of_list_lookup_2|done].
    + intros j (m' & Hj & Hle')%Hin. eapply Hmax; [done|]. apply Hz; [by eapply elem_of_list_lookup_2|done].
Qed.
Lemma StronglySorted_lookup {A} (R : A -> A -> Prop) l i j x y :
  StronglySorted R l -> l !! i = Some x -> l !! j = Some y -> i < j -> R x y.
Proof.
  intros Hs. revert i j. induction Hs as [|z l Hs IH Hz]; intros i j Hi Hj Hlt; [done|].
  destruct j as [|j]; [lia|]. destruct i as [|i]; simpl in *.
  - injection Hi as ->. rewrite Forall_forall in Hz. apply Hz. by eapply elem_of_list_lookup_2.
  - eapply IH; [done..|lia].
Qed.
(** For ascending labels that is the greatest such label. *)
Lemma labelindex_inexact_sorted y name axis ax l i :
  valid y -> py_axis y axis = Ok ax -> llabel y !! ax = Some l -> name ∉ l ->
  (forall z, z ∈ l -> z = name \/ comparable z name = true) ->
  StronglySorted lab_lt l ->
  labelindex y name (Some axis) false = Ok i <->
  exists m, l !! i = Some m /\ lab_le m name /\ forall m', m' ∈ l -> lab_le m' name -> lab_le m' m.
Proof.
  intros Hv Hp Hl Hni Hc Hs. rewrite labelindex_inexact by done. split.
  - intros (m & Hm & Hle & Hmax). exists m. split_and!; [done..|].
    intros m' [j Hj]%elem_of_list_lookup Hle'. specialize (Hmax _ _ Hj Hle').
    destruct (decide (j = i)) as [->|]; [simplify_eq; by apply lab_le_lt, lab_lt_irrefl|].
    apply lab_lt_le. eapply StronglySorted_lookup; [done..|lia].
  - intros (m & Hm & Hle & Hmax). exists m. split_and!; [done..|].
    intros j m' Hj Hle'. destruct (decide (j <= i)); [done|]. exfalso.
    assert (lab_le m' m) as Hmm by (apply Hmax; [by eapply elem_of_list_lookup_2|done]).
    apply lab_le_lt in Hmm. apply Hmm. eapply StronglySorted_lookup; [done..|lia].
Qed.
Lemma labelindex_inexact_none y name axis ax l :
  valid y -> py_axis y axis = Ok ax -> llabel y !! ax = Some l -> name ∉ l ->
  (forall z, z ∈ l -> z = name \/ comparable z name = true) ->
  (forall z, z ∈ l -> ~ lab_le z name) ->
  labelindex y name (Some axis) false = Err IndexError.
Proof.
  intros Hv Hp Hl Hni Hc Hno. destruct (labelindex y name (Some axis) false) as [i|e] eqn:E.
  - eapply labelindex_inexact in E as (m & Hm & Hle & _); [|done..].
    exfalso. eapply Hno; [|done]. by eapply elem_of_list_lookup_2.
  - f_equal. unfold labelindex in E. simpl in E. case_decide; [congruence|]. rewrite Hp in E. simpl in E.
    apply axis_label_ok in Hl as Hl'. rewrite Hl' in E. simpl in E.
    assert (index_of name l = None) as H0 by (by apply index_of_None). rewrite H0 in E.
    apply bind_err in E as [E|(idx & _ & [_ ->]%of_opt_err)]; [|done].
    apply positions_err in E as (z & Hz & E). by rewrite lab_leR_total in E by auto.
Qed.
Lemma labelindex_exact_false y name axis i :
  labelindex y name (Some axis) true = Ok i -> labelindex y name (Some axis) false = Ok i.
Proof.
  unfold labelindex. simpl. case_decide; [done|]. rewrite !bind_ok. intros (ax & -> & (l & Hl & H')%bind_ok).
  exists ax. split; [done|]. rewrite Hl. simpl. by destruct (index_of name l).
Qed.

(** * maplabel *)
Lemma NoDup_fmap_inj {A B} (f : A -> B) (l : list A) :
  NoDup l -> NoDup (f <$> l) <-> forall a b, a ∈ l -> b ∈ l -> f a = f b -> a = b.
Proof.
  intros Hl. split.
  - intros Hf a b [i Hi]%elem_of_list_lookup [j Hj]%elem_of_list_lookup He.
    assert (i = j) as ->; [|congruence]. eapply NoDup_lookup; [exact Hf|..]; rewrite list_lookup_fmap.
    + by rewrite Hi.
    + rewrite Hj. simpl. by rewrite He.
  - intros Hi. apply NoDup_fmap_2_strong; [|done]. auto.
Qed.
Lemma labels_at_fmap (f : lab -> lab) (label : list (list lab)) idx (ls : list lab) :
  labels_at label idx ls -> labels_at (A:=lab) (map_axis f <$> label) idx (f <$> ls).
Proof. induction 1; csimpl; constructor; [|done]. unfold map_axis. by rewrite list_lookup_fmap, H. Qed.
Lemma maplabel_all y f y' :
  valid y -> maplabel y f None = Ok y' ->
  lx y' = lx y /\ llabel y' = (fun axis : list lab => f <$> axis) <$> llabel y /\
  (valid y' <-> Forall (fun axis => forall a b, a ∈ axis -> b ∈ axis -> f a = f b -> a = b) (llabel y)) /\
  (valid y' -> forall ls, in_grid (llabel y) ls -> cell y' (f <$> ls) = cell y ls).
Proof.
  intros Hv [= <-]. simpl. split_and!; [done..| |].
  - unfold valid at 1. simpl. rewrite Forall_fmap. split.
    + intros (_ & _ & _ & H). apply Forall_forall. intros axis Hin. rewrite Forall_forall in H.
      specialize (H _ Hin). simpl in H. unfold map_axis in H. rewrite NoDup_fmap_inj in H; [done|].
      pose proof (valid_nodup y Hv) as Hn. rewrite Forall_forall in Hn. auto.
    + intros H. split_and!.
      * apply Hv.
      * destruct Hv as (_ & Hne & _). by destruct (llabel y).
      * change (lshape _) with (lshape y). rewrite <-(valid_shape y Hv), <-list_fmap_compose.
        apply list_fmap_ext. intros _ axis _. simpl. unfold map_axis. by rewrite fmap_length.
      * apply Forall_forall. intros axis Hin. rewrite Forall_forall in H. simpl.
        apply (NoDup_fmap_inj f axis); [|by apply H].
        pose proof (valid_nodup y Hv) as Hn. rewrite Forall_forall in Hn. auto.
  - intros Hv' ls [idx Hl]%in_grid_labels_at.
    rewrite (cell_at y idx) by (done || by apply valid_nodup).
    rewrite (cell_at _ idx (f <$> ls)); [done|by apply valid_nodup|by apply labels_at_fmap].
Qed.
Lemma maplabel_axis y f axis y' :
  valid y -> maplabel y f (Some axis) = Ok y' ->
  exists ax l, py_axis y axis = Ok ax /\ llabel y !! ax = Some l /\
  lx y' = lx y /\ llabel y' = <[ax := f <$> l]> (llabel y) /\
  (valid y' <-> forall a b, a ∈ l -> b ∈ l -> f a = f b -> a = b) /\
  (valid y' -> forall ls a, in_grid (llabel y) ls -> ls !! ax = Some a -> cell y' (<[ax := f a]> ls) = cell y ls).
Proof.
  intros Hv. unfold maplabel. intros (ax & Hp & (l & Hl%axis_label_ok & [= <-])%bind_ok)%bind_ok.
  exists ax, l. simpl.
  assert (NoDup l) as Hnd by exact (Forall_lookup_1 _ _ _ _ (valid_nodup y Hv) Hl).
  assert (Hlt : ax < length (llabel y)) by (by eapply lookup_lt_Some).
  assert (forall Hv' : NoDup (f <$> l), valid (Larry (lx y) (<[ax:=f <$> l]> (llabel y)))) as Hval.
  { intros H. eapply (relabel_axis y ax l (f <$> l)); [done..|]. by rewrite fmap_length. }
  split_and!; [done..| |].
  - rewrite <-NoDup_fmap_inj by done. split; [|apply Hval]. intros Hv'.
    apply valid_nodup in Hv'. simpl in Hv'. eapply Forall_lookup_1; [exact Hv'|]. by apply list_lookup_insert.
  - intros Hv' ls a Hg Ha.
    assert (NoDup (f <$> l)) as Hn.
    { apply valid_nodup in Hv'. simpl in Hv'. eapply Forall_lookup_1; [exact Hv'|]. by apply list_lookup_insert. }
    destruct (relabel_axis y ax l (f <$> l)) as [_ Hc]; [done..|by rewrite fmap_length|].
    apply in_grid_labels_at in Hg as [idx Hls].
    destruct (labels_at_lookup_is_Some _ _ _ _ _ Hls Hl) as (i & a' & Hi & Ha' & Hia).
    assert (a' = a) as -> by congruence.
    rewrite (Hc _ i (f a) a).
    + by rewrite list_insert_insert, list_insert_id.
    + apply list_lookup_insert. by eapply lookup_lt_Some.
    + by rewrite list_lookup_fmap, Hia.
    + done.
Qed.

(** * take *)
Lemma py_get_mod {A} (l : list A) z x :
  py_get l z = Some x <-> exists i, py_index (length l) z = Some i /\ l !! i = Some x.
Proof. unfold py_get. by rewrite bind_Some. Qed.
Lemma py_index_mod n z i : py_index n z = Some i -> Z.of_nat i = (z mod Z.of_nat n)%Z.
Proof.
  intros [Hi [->| ->]]%py_index_Some.
  - rewrite Z.mod_small; lia.
  - replace (Z.of_nat i - Z.of_nat n)%Z with (Z.of_nat i + (-1) * Z.of_nat n)%Z by lia.
    rewrite Z.mod_add by lia. rewrite Z.mod_small; lia.
Qed.
Lemma mapM_bind {A B C} (f : A -> option B) (g : B -> option C) l :
  mapM (fun x => f x ≫= g) l = mapM f l ≫= mapM g.
Proof.
  induction l as [|x l IH]; simpl; [done|]. destruct (f x) as [y|]; simpl; [|done].
  rewrite IH. destruct (mapM f l) as [ys|]; simpl; [done|]. by destruct (g y).
Qed.
Lemma mapM_py_index_mod n zs ps :
  mapM (py_index n) zs = Some ps -> (fun z => (z mod Z.of_nat n)%Z) <$> zs = Z.of_nat <$> ps.
Proof.
  intros [Hl H]%mapM_Some_lookup. apply list_eq. intros i. rewrite !list_lookup_fmap.
  destruct (zs !! i) as [z|] eqn:E; simpl.
  - specialize (H _ _ E). destruct (ps !! i) as [p|] eqn:E'; simpl.
    + f_equal. symmetry. by apply py_index_mod.
    + apply lookup_ge_None in E'. apply lookup_lt_Some in E. lia.
  - apply lookup_ge_None in E. rewrite lookup_ge_None_2 by lia. done.
Qed.
Lemma mapM_index_inj {A} (l : list A) ps xs :
  NoDup l -> mapM (l !!.) ps = Some xs -> NoDup xs <-> NoDup ps.
Proof.
  intros Hl [Hlen H]%mapM_Some_lookup. rewrite !NoDup_alt. split.
  - intros Hx i j p Hi Hj. pose proof (H _ _ Hi) as Gi. pose proof (H _ _ Hj) as Gj.
    assert (is_Some (xs !! i)) as [x Hxi]. { apply lookup_lt_is_Some. rewrite Hlen. by eapply lookup_lt_Some. }
    eapply Hx; [done|]. congruence.
  - intros Hp i j x Hi Hj.
    assert (is_Some (ps !! i)) as [p Hpi]. { apply lookup_lt_is_Some. rewrite <-Hlen. by eapply lookup_lt_Some. }
    assert (is_Some (ps !! j)) as [q Hqj]. { apply lookup_lt_is_Some. rewrite <-Hlen. by eapply lookup_lt_Some. }
    pose proof (H _ _ Hpi) as Gi. pose proof (H _ _ Hqj) as Gj. eapply Hp; [done|].
    rewrite Hqj. f_equal. eapply NoDup_lookup; [exact Hl|rewrite Gj; done|rewrite Gi; done].
Qed.
Lemma NoDup_of_nat (ps : list nat) : NoDup (Z.of_nat <$> ps) <-> NoDup ps.
Proof.
  split; [apply NoDup_fmap_1|]. apply NoDup_fmap_2. intros ? ? ?. lia.
Qed.
Lemma valid_axis_len y ax l : valid y -> llabel y !! ax = Some l -> axlen (larr y) ax = Some (length l).
Proof. intros Hv Hl. unfold axlen. change (shape (larr y)) with (lshape y). apply valid_axis; eauto. Qed.
Lemma larry_take_spec y indices axis y' :
  valid y -> larry_take y indices axis = Ok y' ->
  exists ax l lab', py_axis y axis = Ok ax /\ llabel y !! ax = Some l /\
  mapM (py_get l) indices = Some lab' /\
  valid y' /\ ldtype y' = ldtype y /\ llabel y' = <[ax := lab']> (llabel y) /\
  forall ls v, cell y' ls = Some v <-> cell y ls = Some v /\ exists a, ls !! ax = Some a /\ a ∈ lab'.
Proof.
  intros Hv. unfold larry_take.
  intros (ax & Hp & (l & Hl%axis_label_ok & (lab' & Hlab%of_opt_ok & H)%bind_ok)%bind_ok)%bind_ok.
  destruct (py_nodup lab') eqn:En; [|done]. apply py_nodup_spec in En.
  apply bind_ok in H as (b & Hb & [= <-]). unfold np_take in Hb.
  apply bind_ok in Hb as (n & Hn%of_opt_ok & (ps & Hps%of_opt_ok & Hb%of_opt_ok)%bind_ok).
  exists ax, l, lab'. rewrite (valid_axis_len y ax l Hv Hl) in Hn. injection Hn as <-.
  destruct (select_axis y ax l ps b lab') as [? Hc]; try done.
  unfold py_get in Hlab. rewrite mapM_bind, Hps in Hlab. done.
Qed.
Lemma larry_take_ok y indices axis ax l :
  valid y -> py_axis y axis = Ok ax -> llabel y !! ax = Some l ->
  (forall z, z ∈ indices -> - Z.of_nat (length l) <= z < Z.of_nat (length l))%Z ->
  NoDup ((fun z => z mod Z.of_nat (length l))%Z <$> indices) ->
  exists y', larry_take y indices axis = Ok y'.
Proof.
  intros Hv Hp Hl Hr Hnd. unfold larry_take. rewrite Hp. simpl.
  apply axis_label_ok in Hl as Hl'. rewrite Hl'. simpl.
  assert (is_Some (mapM (py_index (length l)) indices)) as [ps Hps].
  { apply mapM_is_Some, Forall_forall. intros z Hz. apply not_eq_None_Some. rewrite py_index_None.
    specialize (Hr z Hz). lia. }
  rewrite (mapM_py_index_mod _ _ _ Hps), NoDup_of_nat in Hnd.
  assert (Forall (fun i => i < length l) ps) as Hlt.
  { apply mapM_Some in Hps. eapply Forall2_Forall_r; [exact Hps|]. apply Forall_true. intros z i. by apply py_index_lt. }
  assert (is_Some (mapM (l !!.) ps)) as [lab' Hlab].
  { apply mapM_is_Some. eapply Forall_impl; [exact Hlt|]. intros i. by apply lookup_lt_is_Some. }
  unfold py_get. rewrite mapM_bind, Hps. simpl. rewrite Hlab. simpl.
  assert (NoDup l) as Hndl by exact (Forall_lookup_1 _ _ _ _ (valid_nodup y Hv) Hl).
  assert (py_nodup lab' = true) as ->. { apply py_nodup_spec. by eapply mapM_index_inj. }
  unfold np_take. rewrite (valid_axis_len y ax l Hv Hl). simpl. rewrite Hps. simpl.
  destruct (take_pos (larr y) ps ax) as [b|] eqn:E; simpl; [eauto|].
  exfalso. assert (is_Some (take_pos (larr y) ps ax)) as [? ?]; [|congruence].
  apply take_pos_is_Some; [by apply valid_wf|]. exists (length l). split; [|done]. by apply valid_axis_len.
Qed.
Lemma larry_take_bad y indices axis ax l :
  valid y -> py_axis y axis = Ok ax -> llabel y !! ax = Some l ->
  ~ ((forall z, z ∈ indices -> - Z.of_nat (length l) <= z < Z.of_nat (length l))%Z /\
     NoDup ((fun z => z mod Z.of_nat (length l))%Z <$> indices)) ->
  larry_take y indices axis = Err IndexError.
Proof.
  intros Hv Hp Hl Hbad. unfold larry_take. rewrite Hp. simpl.
  apply axis_label_ok in Hl as Hl'. rewrite Hl'. simpl. unfold py_get. rewrite mapM_bind.
  destruct (mapM (py_index (length l)) indices) as [ps|] eqn:Hps; simpl; [|done].
  destruct (mapM (l !!.) ps) as [lab'|] eqn:Hlab; simpl; [|done].
  destruct (py_nodup lab') eqn:En; [|done]. apply py_nodup_spec in En. exfalso. apply Hbad. split.
  - intros z Hz. apply mapM_Some in Hps. apply elem_of_list_lookup in Hz as [k Hz].
    destruct (Forall2_lookup_l _ _ _ _ _ Hps Hz) as (i & _ & Hi). apply py_index_Some in Hi. lia.
  - rewrite (mapM_py_index_mod _ _ _ Hps), NoDup_of_nat. apply (mapM_index_inj l ps lab'); [|done|done].
    exact (Forall_lookup_1 _ _ _ _ (valid_nodup y Hv) Hl).
Qed.
Lemma py_axis_bad y axis :
  valid y -> (axis < - Z.of_nat (lndim y) \/ Z.of_nat (lndim y) <= axis)%Z -> py_axis y axis = Err IndexError.
Proof.
  intros Hv H. unfold py_axis. rewrite (valid_ndim y Hv).
  assert (py_index (lndim y) axis = None) as -> by (by apply py_index_None). done.
Qed.
