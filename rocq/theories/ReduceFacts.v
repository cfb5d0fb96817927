(** Facts about reductions. *)
From Verif Require Export NumericFacts.
From Coq Require Import Sorted.

Lemma omap_numbers vs ns : numbers vs ns -> omap to_num vs = ns.
Proof. induction 1 as [|v n vs ns Hv H IH]; [done|]. simpl. rewrite Hv. by f_equal. Qed.
Lemma lane_nums_present vs ns : numbers vs ns -> lane_nums vs = present ns.
Proof. intros H. unfold lane_nums. by rewrite (omap_numbers _ _ H). Qed.
Lemma present_no_nan ns : Forall (fun n => n <> NaN) (present ns).
Proof. apply Forall_forall. intros n. unfold present. rewrite elem_of_list_filter. tauto. Qed.
Lemma present_all ns : Forall (fun n => n <> NaN) ns -> present ns = ns.
Proof.
  induction 1 as [|n ns Hn H IH]; [done|]. unfold present in *. rewrite filter_cons, decide_True by done. by rewrite IH.
Qed.
Lemma present_Z zs : present (num_of_Z <$> zs) = num_of_Z <$> zs.
Proof. apply present_all, Forall_fmap, Forall_true. intros z. apply num_of_Z_nan. Qed.
Lemma int_numbers dt vs : arithmetic dt -> dt <> DFloat -> Forall (fun v => has_dtype dt v = true) vs ->
  numbers vs (num_of_Z <$> lane_ints vs) /\ length (lane_ints vs) = length vs.
Proof.
  intros Hd Hne. unfold lane_ints. induction 1 as [|v vs Hv H [IH1 IH2]]; [split; [constructor|done]|].
  destruct (arith_to_num dt v Hd Hv) as [n Hn]. destruct (int_num dt v n Hd Hne Hv Hn) as (z & -> & Hz).
  simpl. rewrite Hz. simpl. split; [by constructor|]. by f_equal.
Qed.

(** Folds of max and min. *)
Lemma num_max_spec a b : a <> NaN -> b <> NaN ->
  num_max a b <> NaN /\ (num_max a b = a \/ num_max a b = b) /\ num_le a (num_max a b) /\ num_le b (num_max a b).
Proof.
  intros Ha Hb. unfold num_max. destruct (num_ltb a b) eqn:E.
  - apply num_ltb_lt in E. split_and!; [done|by right|by left|by apply num_le_refl].
  - split_and!; [done|by left|by apply num_le_refl|].
    destruct (num_le_total b a Hb Ha) as [?|H%num_ltb_lt]; [done|congruence].
Qed.
Lemma num_min_spec a b : a <> NaN -> b <> NaN ->
  num_min a b <> NaN /\ (num_min a b = a \/ num_min a b = b) /\ num_le (num_min a b) a /\ num_le (num_min a b) b.
Proof.
  intros Ha Hb. unfold num_min. destruct (num_ltb b a) eqn:E.
  - apply num_ltb_lt in E. split_and!; [done|by right|by left|by apply num_le_refl].
  - split_and!; [done|by left|by apply num_le_refl|].
    destruct (num_le_total a b Ha Hb) as [?|H%num_ltb_lt]; [done|congruence].
Qed.
Lemma fold_max ns a : a <> NaN -> Forall (fun n => n <> NaN) ns ->
  let m := fold_left num_max ns a in m ∈ a :: ns /\ forall n, n ∈ a :: ns -> num_le n m.
Proof.
  intros Ha Hns. revert a Ha. induction Hns as [|b ns Hb Hns IH]; intros a Ha; simpl.
  { split; [by left|]. intros n ->%elem_of_list_singleton. by apply num_le_refl. }
  destruct (num_max_spec a b Ha Hb) as (Hm & Hor & Hla & Hlb). destruct (IH _ Hm) as [H1 H2]. split.
  - rewrite elem_of_cons in H1. destruct H1 as [->|H1]; [|by do 2 right]. destruct Hor as [-> | ->]; [by left|right; by left].
  - assert (num_le (num_max a b) (fold_left num_max ns (num_max a b))) by (apply H2; by left).
    intros n. rewrite !elem_of_cons. intros [->|[->|Hn]]; [by eapply num_le_trans..|]. apply H2. by right.
Qed.
Lemma fold_min ns a : a <> NaN -> Forall (fun n => n <> NaN) ns ->
  let m := fold_left num_min ns a in m ∈ a :: ns /\ forall n, n ∈ a :: ns -> num_le m n.
Proof.
  intros Ha Hns. revert a Ha. induction Hns as [|b ns Hb Hns IH]; intros a Ha; simpl.
  { split; [by left|]. intros n ->%elem_of_list_singleton. by apply num_le_refl. }
  destruct (num_min_spec a b Ha Hb) as (Hm & Hor & Hla & Hlb). destruct (IH _ Hm) as [H1 H2]. split.
  - rewrite elem_of_cons in H1. destruct H1 as [->|H1]; [|by do 2 right]. destruct Hor as [-> | ->]; [by left|right; by left].
  - assert (num_le (fold_left num_min ns (num_min a b)) (num_min a b)) by (apply H2; by left).
    intros n. rewrite !elem_of_cons. intros [->|[->|Hn]]; [by eapply num_le_trans..|]. apply H2. by right.
Qed.
Lemma fold_max_Z zs z : num_of_Z (fold_left Z.max zs z) = fold_left num_max (num_of_Z <$> zs) (num_of_Z z).
Proof.
  revert z. induction zs as [|a zs IH]; intros z; [done|]. cbn [fold_left fmap list_fmap]. rewrite IH. f_equal.
  unfold num_max. destruct (num_ltb (num_of_Z z) (num_of_Z a)) eqn:E.
  - rewrite num_ltb_lt, num_of_Z_lt in E. f_equal. lia.
  - f_equal. apply not_true_iff_false in E. rewrite num_ltb_lt, num_of_Z_lt in E. lia.
Qed.
Lemma fold_min_Z zs z : num_of_Z (fold_left Z.min zs z) = fold_left num_min (num_of_Z <$> zs) (num_of_Z z).
Proof.
  revert z. induction zs as [|a zs IH]; intros z; [done|]. cbn [fold_left fmap list_fmap]. rewrite IH. f_equal.
  unfold num_min. destruct (num_ltb (num_of_Z a) (num_of_Z z)) eqn:E.
  - rewrite num_ltb_lt, num_of_Z_lt in E. f_equal. lia.
  - f_equal. apply not_true_iff_false in E. rewrite num_ltb_lt, num_of_Z_lt in E. lia.
Qed.

Lemma median_spec ns : ns <> [] -> Forall (fun n => n <> NaN) ns -> median_of ns (num_median ns).
Proof.
  intros Hne Hns. exists (num_sort ns). split_and!; [apply num_sort_perm|by apply num_sort_sorted|].
  pose proof (Permutation_length (num_sort_perm ns)) as Hlen. unfold num_median. rewrite Hlen.
  assert (Hpos : 0 < length ns) by (destruct ns; [done|simpl; lia]).
  assert (Hh : length ns / 2 < length (num_sort ns)) by (rewrite Hlen; by apply Nat.div_lt; lia).
  destruct (lookup_lt_is_Some_2 _ _ Hh) as [h Hh']. rewrite Hh'. cbn [default from_option id].
  assert (Hodd : Nat.b2n (Nat.odd (length ns)) = length ns mod 2) by (rewrite <-Nat.bit0_odd; apply Nat.bit0_mod).
  destruct (decide (length ns mod 2 = 1)) as [E|E].
  - rewrite E in Hodd. by destruct (Nat.odd (length ns)).
  - assert (length ns mod 2 = 0) as E0 by (pose proof (Nat.mod_upper_bound (length ns) 2); lia). rewrite E0 in Hodd.
    destruct (Nat.odd (length ns)); [done|].
    assert (Hl : length ns / 2 - 1 < length (num_sort ns)) by lia.
    destruct (lookup_lt_is_Some_2 _ _ Hl) as [l Hl']. rewrite Hl'. cbn [default from_option id]. eauto.
Qed.
Lemma mean_spec ns : num_mean ns = mean_of ns.
Proof. unfold num_mean, mean_of. by rewrite fold_total, num_add_0_l. Qed.
Lemma var_spec ddof ns :
  num_var ddof ns = num_div (num_total ((fun n => num_mul (num_sub n (mean_of ns)) (num_sub n (mean_of ns))) <$> ns))
                  (num_of_Z (Z.of_nat (length ns) - ddof)).
Proof. unfold num_var. by rewrite fold_total, num_add_0_l, mean_spec. Qed.

Lemma float_red_spec op ns :
  op <> RProd -> op <> RAny -> op <> RAll -> ns <> [] -> Forall (fun n => n <> NaN) ns -> reduced op ns (float_red op ns).
Proof.
  intros H1 H2 H3 Hne Hns. assert (E : float_red op ns = match op with
      | RSum => fold_left num_add ns (num_of_Z 0)
      | RMean => num_mean ns
      | RMedian => num_median ns
      | RVar ddof => num_var ddof ns
      | RMax => fold1 num_max NaN ns
      | RMin => fold1 num_min NaN ns
      | RProd | RAny | RAll => NaN
      end) by (by destruct ns). rewrite E. clear E. destruct op; simpl; try done.
  - by rewrite fold_total, num_add_0_l.
  - apply mean_spec.
  - by apply median_spec.
  - apply var_spec.
  - destruct ns as [|n ns]; [done|]. apply Forall_cons in Hns as [? ?]. by apply fold_max.
  - destruct ns as [|n ns]; [done|]. apply Forall_cons in Hns as [? ?]. by apply fold_min.
Qed.

Lemma existsb_any vs : reduces RAny vs (VBool (existsb val_truth vs)).
Proof.
  simpl. destruct (existsb val_truth vs) eqn:E; [left|right]; split; try done.
  - apply existsb_exists in E as (u & Hu%elem_of_list_In & ?). eauto.
  - intros u Hu. apply not_true_iff_false. intros Hu'. apply not_true_iff_false in E. apply E, existsb_exists.
    exists u. split; [by apply elem_of_list_In|done].
Qed.
Lemma forallb_all vs : reduces RAll vs (VBool (forallb val_truth vs)).
Proof.
  simpl. destruct (forallb val_truth vs) eqn:E; [left|right]; split; try done.
  - rewrite forallb_forall in E. intros u Hu%elem_of_list_In. auto.
  - apply not_true_iff_false in E. rewrite forallb_forall in E.
    induction vs as [|v vs IH]; [exfalso; apply E; by intros x []|]. destruct (val_truth v) eqn:Ev.
    + destruct IH as (u & ? & ?); [|exists u; split; [by right|done]]. intros H. apply E. intros x [<-|?]; auto.
    + exists v. split; [by left|done].
Qed.

Lemma bool_truth_num b : to_num (VBool b) = Some (num_of_Z (if b then 1 else 0)).
Proof. done. Qed.
Lemma bool_max vs ns : Forall (fun v => has_dtype DBool v = true) vs -> numbers vs ns -> vs <> [] ->
  reduced RMax ns (num_of_Z (if existsb val_truth vs then 1 else 0)).
Proof.
  intros Ht Hns Hne.
  assert (H01 : forall n, n ∈ ns -> n = num_of_Z 0 \/ n = num_of_Z 1).
  { intros n [i Hi]%elem_of_list_lookup. destruct (Forall2_lookup_r _ _ _ _ _ Hns Hi) as (v & Hv & Hvn).
    rewrite Forall_lookup in Ht. specialize (Ht i v Hv). destruct v as [| |b| | |]; try done. injection Hvn as <-. destruct b; auto. }
  destruct (existsb_any vs) as [[[= ->] (u & Hu & Hut)]|[[= ->] Hall]].
  - apply elem_of_list_lookup in Hu as [i Hi]. destruct (Forall2_lookup_l _ _ _ _ _ Hns Hi) as (n & Hn & Hun).
    rewrite Forall_lookup in Ht. specialize (Ht i u Hi). destruct u as [| |b| | |]; try done. simpl in Hut. subst b. injection Hun as <-.
    split; [by eapply elem_of_list_lookup_2|]. intros n [-> | ->]%H01; apply num_of_Z_le; lia.
  - assert (H0 : forall n, n ∈ ns -> n = num_of_Z 0).
    { intros n [i Hi]%elem_of_list_lookup. destruct (Forall2_lookup_r _ _ _ _ _ Hns Hi) as (v & Hv & Hvn).
      pose proof (Hall v (elem_of_list_lookup_2 _ _ _ Hv)) as Hf. rewrite Forall_lookup in Ht. specialize (Ht i v Hv).
      destruct v as [| |b| | |]; try done. simpl in Hf. subst b. by injection Hvn as <-. }
    split.
    + destruct Hns as [|v n vs ns Hv Hns]; [done|]. rewrite (H0 n) by left. left.
    + intros n ->%H0. apply num_of_Z_le. lia.
Qed.
Lemma bool_min vs ns : Forall (fun v => has_dtype DBool v = true) vs -> numbers vs ns -> vs <> [] ->
  reduced RMin ns (num_of_Z (if forallb val_truth vs then 1 else 0)).
Proof.
  intros Ht Hns Hne.
  assert (H01 : forall n, n ∈ ns -> n = num_of_Z 0 \/ n = num_of_Z 1).
  { intros n [i Hi]%elem_of_list_lookup. destruct (Forall2_lookup_r _ _ _ _ _ Hns Hi) as (v & Hv & Hvn).
    rewrite Forall_lookup in Ht. specialize (Ht i v Hv). destruct v as [| |b| | |]; try done. injection Hvn as <-. destruct b; auto. }
  destruct (forallb_all vs) as [[[= ->] Hall]|[[= ->] (u & Hu & Hut)]].
  - assert (H0 : forall n, n ∈ ns -> n = num_of_Z 1).
    { intros n [i Hi]%elem_of_list_lookup. destruct (Forall2_lookup_r _ _ _ _ _ Hns Hi) as (v & Hv & Hvn).
      pose proof (Hall v (elem_of_list_lookup_2 _ _ _ Hv)) as Hf. rewrite Forall_lookup in Ht. specialize (Ht i v Hv).
      destruct v as [| |b| | |]; try done. simpl in Hf. subst b. by injection Hvn as <-. }
    split.
    + destruct Hns as [|v n vs ns Hv Hns]; [done|]. rewrite (H0 n) by left. left.
    + intros n ->%H0. apply num_of_Z_le. lia.
  - apply elem_of_list_lookup in Hu as [i Hi]. destruct (Forall2_lookup_l _ _ _ _ _ Hns Hi) as (n & Hn & Hun).
    rewrite Forall_lookup in Ht. specialize (Ht i u Hi). destruct u as [| |b| | |]; try done. simpl in Hut. subst b. injection Hun as <-.
    split; [by eapply elem_of_list_lookup_2|]. intros n [-> | ->]%H01; apply num_of_Z_le; lia.
Qed.

Lemma red_lane_spec op dt dt' vs :
  op <> RProd -> red_dtype op dt = Ok dt' -> Forall (fun v => has_dtype dt v = true) vs -> vs <> [] ->
  has_dtype dt' (red_lane op dt vs) = true /\ reduces op vs (red_lane op dt vs).
Proof.
  intros Hop Hdt Ht Hne.
  assert (Hd : arithmetic dt) by (unfold arithmetic; destruct dt; simpl in Hdt; naive_solver).
  destruct (arith_numbers dt vs Hd Ht) as [ns Hns].
  destruct (decide (op = RAny)) as [->|Hany].
  { split; [|apply existsb_any]. destruct dt; simpl in Hdt; try done; injection Hdt as <-; done. }
  destruct (decide (op = RAll)) as [->|Hall].
  { split; [|apply forallb_all]. destruct dt; simpl in Hdt; try done; injection Hdt as <-; done. }
  assert (Hred : forall v, (exists m, to_num v = Some m /\ if decide (present ns = []) then m = NaN else reduced op (present ns) m) -> reduces op vs v).
  { intros v (m & Hm & H). destruct op; try done; exists ns, m; done. }
  assert (Hfl : forall v, v = VFloat (float_red op (lane_nums vs)) -> has_dtype DFloat v = true /\ reduces op vs v).
  { intros v ->. split; [done|]. apply Hred. rewrite (lane_nums_present vs ns Hns). eexists. split; [done|].
    case_decide as E; [by rewrite E|]. apply float_red_spec; try done. apply present_no_nan. }
  assert (Hnn : dt <> DFloat -> present ns = num_of_Z <$> lane_ints vs /\ lane_ints vs <> []).
  { intros Hnf. destruct (int_numbers dt vs Hd Hnf Ht) as [Hn Hl]. rewrite (numbers_unique _ _ _ Hns Hn). rewrite present_Z.
    split; [done|]. intros E. rewrite E in Hl. by destruct vs. }
  assert (Hint : forall z, dt <> DFloat -> reduced op (num_of_Z <$> lane_ints vs) (num_of_Z z) -> reduces op vs (VInt z)).
  { intros z Hnf Hr. apply Hred. destruct (Hnn Hnf) as [E Hnl]. exists (num_of_Z z). split; [done|]. rewrite E.
    rewrite decide_False; [done|]. by destruct (lane_ints vs). }
  destruct dt; simpl in Hdt; try done; destruct op; try done; injection Hdt as <-; try (by apply Hfl); (split; [done|]).
  - apply Hint; [done|]. simpl. by rewrite total_Z.
  - destruct (Hnn ltac:(done)) as [_ Hnl]. apply Hint; [done|]. destruct (lane_ints vs) as [|z zs] eqn:E; [done|].
    cbn [fold1]. rewrite fold_max_Z. apply fold_max; [done|]. apply Forall_fmap, Forall_true. done.
  - destruct (Hnn ltac:(done)) as [_ Hnl]. apply Hint; [done|]. destruct (lane_ints vs) as [|z zs] eqn:E; [done|].
    cbn [fold1]. rewrite fold_min_Z. apply fold_min; [done|]. apply Forall_fmap, Forall_true. done.
  - apply Hint; [done|]. simpl. by rewrite total_Z.
  - apply Hred. eexists. split; [apply bool_truth_num|]. destruct (Hnn ltac:(done)) as [Ep Hnl].
    assert (Hpn : present ns = ns).
    { rewrite Ep. destruct (int_numbers DBool vs Hd ltac:(done) Ht) as [Hn Hl]. by apply (numbers_unique vs). }
    rewrite Hpn. rewrite decide_False; [by apply bool_max|]. intros ->. by inversion Hns; subst.
  - apply Hred. eexists. split; [apply bool_truth_num|]. destruct (Hnn ltac:(done)) as [Ep Hnl].
    assert (Hpn : present ns = ns).
    { rewrite Ep. destruct (int_numbers DBool vs Hd ltac:(done) Ht) as [Hn Hl]. by apply (numbers_unique vs). }
    rewrite Hpn. rewrite decide_False; [by apply bool_min|]. intros ->. by inversion Hns; subst.
Qed.

(** ** Reductions of larrys *)
Lemma size_zero sh : size_of sh = 0 <-> 0 ∈ sh.
Proof.
  induction sh as [|n sh IH]; simpl; [rewrite elem_of_nil; lia|]. rewrite elem_of_cons, <-IH. lia.
Qed.
Lemma size_nonempty y : valid y -> lsize y <> 0 <-> nonempty y.
Proof.
  intros Hv. unfold lsize, nonempty. rewrite size_zero, <-valid_shape by done.
  rewrite elem_of_list_fmap, Forall_forall. split.
  - intros H l Hl ->. apply H. by exists [].
  - intros H (l & Hl & Hin). apply (H l Hin). by destruct l.
Qed.
Lemma red_dtype_ok op dt : arithmetic dt -> exists dt', red_dtype op dt = Ok dt'.
Proof. intros [->|[->| ->]]; simpl; eauto. Qed.
Lemma red_dtype_err op dt : ~ arithmetic dt -> exists e, red_dtype op dt = Err e.
Proof. unfold arithmetic. destruct dt; simpl; eauto; naive_solver. Qed.
Lemma nonempty_data y : valid y -> nonempty y -> data (larr y) <> [].
Proof.
  intros Hv Hne E. apply (size_nonempty y Hv) in Hne. apply Hne. pose proof (valid_wf y Hv) as Hwf.
  unfold arr_wf, asize in Hwf. rewrite E in Hwf. done.
Qed.

(** Any lane function satisfying a relation. *)
Lemma larry_reduce_gen op y axis (R : list val -> val -> Prop) dt' :
  valid y -> nonempty y -> axis_ok y axis -> red_dtype op (ldtype y) = Ok dt' ->
  (forall vs, vs <> [] -> Forall (fun v => has_dtype (ldtype y) v = true) vs ->
     has_dtype dt' (red_lane op (ldtype y) vs) = true /\ R vs (red_lane op (ldtype y) vs)) ->
  exists o, larry_reduce op y axis = Ok o /\
  match axis with
  | None => exists vs v, o = OVal v /\ vs = data (larr y) /\ values_of y vs /\ R vs v
  | Some a => exists ax, axis_is y a ax /\
      (length (llabel y) = 1 /\ (exists vs v, o = OVal v /\ lane_of y ax [] vs /\ R vs v) \/
       1 < length (llabel y) /\ exists z, o = OLar z /\ valid z /\ llabel z = delete ax (llabel y) /\ ldtype z = dt' /\
         forall ls, in_grid (llabel z) ls -> exists vs v, lane_of y ax ls vs /\ cell z ls = Some v /\ R vs v)
  end.
Proof.
  intros Hv Hne Hax Hdt HR. unfold larry_reduce. rewrite decide_False by (by apply size_nonempty). rewrite Hdt. simpl.
  destruct axis as [a|].
  - destruct Hax as [ax Hax]. assert (Hlt : ax < lndim y) by (rewrite <-valid_ndim by done; apply Hax).
    assert (py_index (lndim y) a = Some ax) as ->.
    { apply py_index_Some. rewrite <-valid_ndim by done. exact Hax. }
    simpl. destruct (reduce_out y ax dt' (red_lane op (ldtype y)) Hv Hlt Hne) as (b & Hb & H).
    { intros l Hl Ht. by apply HR. }
    rewrite Hb. simpl. destruct H as [[H1 (vs & Hvs & Hvn & Ho)]|[H1 (z & Hz & Ho & Hvz & Hc)]].
    + rewrite Ho. eexists. split; [done|]. exists ax. split; [done|]. left. split; [done|]. eexists _, _. split_and!; [done..|].
      apply HR; [done|]. by eapply lane_of_typed.
    + rewrite Ho. eexists. split; [done|]. exists ax. split; [done|]. right. split; [done|]. exists z. split_and!; try done.
      * by rewrite Hz.
      * by rewrite Hz.
      * intros ls Hg. destruct (Hc ls Hg) as (vs & Hvn & Hvs & Hcz). eexists _, _. split_and!; [done..|].
        apply HR; [done|]. by eapply lane_of_typed.
  - eexists. split; [done|]. eexists _, _. split_and!; [done|done|by apply data_values|].
    apply HR; [by apply nonempty_data|by apply valid_typed].
Qed.
Lemma larry_reduce_total op y axis :
  valid y -> nonempty y -> arithmetic (ldtype y) -> axis_ok y axis -> op <> RProd ->
  exists o, larry_reduce op y axis = Ok o /\ reduction_of op y axis o.
Proof.
  intros Hv Hne Hd Hax Hop. destruct (red_dtype_ok op (ldtype y) Hd) as [dt' Hdt'].
  destruct (larry_reduce_gen op y axis (reduces op) dt' Hv Hne Hax Hdt') as (o & Ho & H).
  { intros vs Hvn Ht. by apply red_lane_spec. }
  exists o. split; [done|]. destruct axis as [a|]; simpl.
  - destruct H as (ax & Ha & H). exists ax. split; [done|]. destruct H as [[H1 H]|[H1 H]].
    + split; [done|lia].
    + split; [lia|]. destruct H as (z & ? & ? & ? & ? & ?). eauto.
  - destruct H as (vs & v & ? & _ & ? & ?). eauto.
Qed.
Lemma larry_reduce_fails op y axis :
  valid y -> nonempty y -> ~ (arithmetic (ldtype y) /\ axis_ok y axis) -> exists e, larry_reduce op y axis = Err e.
Proof.
  intros Hv Hne Hn. unfold larry_reduce. rewrite decide_False by (by apply size_nonempty).
  destruct (red_dtype op (ldtype y)) as [dt'|e] eqn:E; [|by exists e]. simpl.
  assert (Hd : arithmetic (ldtype y)) by (unfold arithmetic; destruct (ldtype y); simpl in E; naive_solver).
  destruct axis as [a|]; [|exfalso; by apply Hn]. destruct (py_index (lndim y) a) as [ax|] eqn:Ea; simpl; [|by eexists].
  exfalso. apply Hn. split; [done|]. exists ax. apply py_index_Some in Ea. unfold axis_is. by rewrite valid_ndim.
Qed.
Lemma larry_reduce_spec op y axis o :
  valid y -> nonempty y -> op <> RProd -> larry_reduce op y axis = Ok o ->
  arithmetic (ldtype y) /\ axis_ok y axis /\ reduction_of op y axis o.
Proof.
  intros Hv Hne Hop Ho.
  assert (Hn : ~ ~ (arithmetic (ldtype y) /\ axis_ok y axis)).
  { intros H. destruct (larry_reduce_fails op y axis Hv Hne H). congruence. }
  assert (Hd : arithmetic (ldtype y)).
  { unfold arithmetic in *. destruct (ldtype y); eauto; exfalso; apply Hn; naive_solver. }
  assert (Hax : axis_ok y axis).
  { destruct axis as [a|]; [|done]. simpl. destruct (py_axis y a) as [ax|e] eqn:Ea; [exists ax; by apply py_axis_is|].
    exfalso. apply Hn. intros [_ [ax Hax%py_axis_is]]. congruence. }
  split_and!; [done..|]. destruct (larry_reduce_total op y axis Hv Hne Hd Hax Hop) as (o' & Ho' & ?). congruence.
Qed.

(** Empty larrys. *)
Lemma larry_reduce_empty op y axis :
  valid y -> ~ nonempty y -> axis_ok y axis ->
  (ldtype y = DFloat \/ op = RAny \/ op = RAll \/ axis = None \/ length (llabel y) = 1) ->
  exists o, larry_reduce op y axis = Ok o /\ reduction_default (red_default op) y axis o.
Proof.
  intros Hv Hne Hax Hdt. unfold larry_reduce.
  rewrite decide_True by (destruct (decide (lsize y = 0)) as [|H]; [done|by apply size_nonempty in H]).
  destruct axis as [a|]; [|by eexists]. destruct Hax as [ax Hax].
  assert (Hlt : ax < lndim y) by (rewrite <-valid_ndim by done; apply Hax).
  assert (py_index (lndim y) a = Some ax) as ->.
  { apply py_index_Some. rewrite <-valid_ndim by done. exact Hax. }
  simpl. assert (Hs : remove_at ax (lshape y) = length <$> remove_at ax (llabel y)) by (by rewrite remove_at_fmap, valid_shape).
  assert (Hlen : length (remove_at ax (llabel y)) = pred (length (llabel y))) by (apply remove_at_length, Hax).
  destruct (decide (length (llabel y) = 1)) as [H1|H1].
  - rewrite Hs. rewrite H1 in Hlen. destruct (remove_at ax (llabel y)); [|done]. simpl. eexists. split; [done|].
    exists ax. split; [done|]. split; [done|lia].
  - assert (Hnz : 1 < length (llabel y)).
    { destruct Hax as [Hax _]. lia. }
    set (dt := match op with RAny | RAll => DBool | _ => ldtype y end).
    assert (Hst : store dt (red_default op) = Ok (red_default op) /\ has_dtype dt (red_default op) = true).
    { destruct Hdt as [Hdt|[->|[->|[?|?]]]]; [|done..]. unfold dt. rewrite Hdt. by destruct op. }
    destruct Hst as [Hst Hty].
    assert (Hn : remove_at ax (llabel y) <> []).
    { intros E. rewrite E in Hlen. simpl in Hlen. lia. }
    set (z := Larry (Nda dt (full (remove_at ax (lshape y)) (red_default op))) (remove_at ax (llabel y))).
    exists (OLar z). split.
    { rewrite Hs. destruct (remove_at ax (llabel y)) as [|l ls] eqn:E; [done|]. simpl.
      fold dt. rewrite Hst. simpl. unfold z. rewrite Hs. done. }
    assert (Hz : valid z).
    { split_and!; simpl; [|done| |].
      - apply nda_wf_get; [apply full_wf|]. simpl. intros idx v. rewrite get_full. case_decide; [|done]. by intros [= <-].
      - unfold lshape, nd_shape. simpl. by rewrite <-Hs.
      - unfold remove_at. apply Forall_delete. by apply valid_nodup. }
    exists ax. split; [done|]. split; [lia|]. intros _. exists z. split_and!; [done..|].
    intros ls [idx Hl]%in_grid_labels_at. rewrite (cell_at z idx ls) by (done || by apply valid_nodup).
    unfold z. simpl. unfold larr. simpl. rewrite get_full, decide_True; [done|].
    pose proof (labels_in_range z idx ls Hz Hl) as Hr. exact Hr.
Qed.

(** ** prod *)
Lemma prod_lane_spec dt dt' vs :
  red_dtype RProd dt = Ok dt' -> Forall (fun v => has_dtype dt v = true) vs ->
  has_dtype dt' (red_lane RProd dt vs) = true /\
  forall ns, numbers vs ns -> to_num (red_lane RProd dt vs) = Some (num_product ns).
Proof.
  intros Hdt Ht. assert (Hd : arithmetic dt) by (unfold arithmetic; destruct dt; simpl in Hdt; naive_solver).
  destruct dt; simpl in Hdt; try done; injection Hdt as <-; (split; [done|]); intros ns Hns.
  - simpl. rewrite (omap_numbers _ _ Hns). f_equal. by rewrite fold_product, num_mul_1_l.
  - destruct (int_numbers DInt vs Hd ltac:(done) Ht) as [Hn _]. rewrite (numbers_unique _ _ _ Hns Hn), product_Z. done.
  - destruct (int_numbers DBool vs Hd ltac:(done) Ht) as [Hn _]. rewrite (numbers_unique _ _ _ Hns Hn), product_Z. done.
Qed.
Lemma lane_amap {A B} (g : A -> B) (a : arr A) ax idx : lane (amap g a) ax idx = map g <$> lane a ax idx.
Proof.
  unfold lane. change (axlen (amap g a) ax) with (axlen a ax). destruct (axlen a ax) as [n|]; [|done]. simpl.
  induction (seq 0 n) as [|k l IH]; [done|]. cbn [mapM list_fmap fmap]. simpl. rewrite get_amap.
  destruct (aget a _); simpl; [|done]. rewrite IH. match goal with |- context [mapM ?f l] => destruct (mapM f l) end; done.
Qed.
Lemma reduce_amap {A B C} (f : list B -> C) (g : A -> B) a ax :
  reduce f (amap g a) ax = reduce (fun l => f (g <$> l)) a ax.
Proof.
  unfold reduce. change (axlen (amap g a) ax) with (axlen a ax). destruct (axlen a ax); [|done]. simpl.
  apply build_ext. intros idx _. rewrite lane_amap. by destruct (lane a ax _).
Qed.
Lemma azip_reduce {A B C D} (h : B -> C -> D) (f : list A -> B) (g : list A -> C) a ax b c :
  reduce f a ax = Some b -> reduce g a ax = Some c -> reduce (fun l => h (f l) (g l)) a ax = Some (azip h b c).
Proof.
  unfold reduce. destruct (axlen a ax); [|done]. simpl. unfold build. intros Hb Hc.
  apply fmap_Some in Hb as (bs & Hb & ->). apply fmap_Some in Hc as (cs & Hc & ->). apply fmap_Some.
  exists (zip_with h bs cs). split; [|done]. revert bs cs Hb Hc.
  induction (indices (remove_at ax (shape a))) as [|i l IH]; intros bs cs Hb Hc.
  - injection Hb as <-. injection Hc as <-. done.
  - simpl in *. destruct (lane a ax (insert_at ax 0 i)) as [vs|]; [|done]. simpl in *.
    destruct (mapM _ l) as [bs'|] eqn:Hb' in Hb; [|done]. destruct (mapM _ l) as [cs'|] eqn:Hc' in Hc; [|done].
    injection Hb as <-. injection Hc as <-. rewrite (IH bs' cs') by done. done.
Qed.

Definition nan_val (v : val) : bool := match to_num v with Some n => is_nan n | None => false end.
Definition one_of (dt : dtype) : val := match dt with DFloat => VFloat (num_of_Z 1) | DBool => VBool true | _ => VInt 1 end.
Definition prod_prep (dt : dtype) (v : val) : val := if nan_val v then one_of dt else v.
Definition prod_lane (dt : dtype) (vs : list val) : val :=
  if forallb nan_val vs then VFloat NaN else red_lane RProd dt (prod_prep dt <$> vs).
Lemma prod_prep_typed dt v : arithmetic dt -> has_dtype dt v = true -> has_dtype dt (prod_prep dt v) = true.
Proof. unfold prod_prep. intros Hd Hv. destruct (nan_val v); [|done]. by destruct Hd as [->|[->| ->]]. Qed.
Lemma prod_prep_num dt v n : arithmetic dt -> to_num v = Some n ->
  to_num (prod_prep dt v) = Some (if decide (n = NaN) then num_of_Z 1 else n).
Proof.
  intros Hd Hn. unfold prod_prep, nan_val. rewrite Hn. destruct n; simpl; try done.
  by destruct Hd as [->|[->| ->]].
Qed.
Lemma product_ones ns : num_product (map (fun n => if decide (n = NaN) then num_of_Z 1 else n) ns) = num_product (present ns).
Proof.
  unfold present. induction ns as [|n ns IH]; [done|]. rewrite filter_cons. cbn [map].
  destruct (decide (n = NaN)) as [->|Hn].
  - rewrite decide_False by naive_solver. rewrite <-IH. apply num_mul_1_l.
  - rewrite decide_True by done. unfold num_product in *. cbn [foldr]. by rewrite IH.
Qed.
Lemma all_nan vs ns : numbers vs ns -> forallb nan_val vs = true <-> present ns = [].
Proof.
  unfold present. induction 1 as [|v n vs ns Hn H IH]; [done|]. simpl. rewrite andb_true_iff, IH. rewrite filter_cons.
  unfold nan_val. rewrite Hn. destruct n; simpl; naive_solver.
Qed.
Lemma prod_lane_reduces dt vs :
  arithmetic dt -> Forall (fun v => has_dtype dt v = true) vs -> reduces RProd vs (prod_lane dt vs).
Proof.
  intros Hd Ht. destruct (arith_numbers dt vs Hd Ht) as [ns Hns]. unfold prod_lane. exists ns.
  pose proof (all_nan _ _ Hns) as Hall. destruct (forallb nan_val vs).
  - exists NaN. split_and!; [done..|]. rewrite decide_True by (by apply Hall). done.
  - destruct (red_dtype_ok RProd dt Hd) as [dt' Hdt'].
    destruct (prod_lane_spec dt dt' (prod_prep dt <$> vs) Hdt') as [_ H].
    { apply Forall_fmap. eapply Forall_impl; [exact Ht|]. intros v. by apply prod_prep_typed. }
    eexists. split_and!; [done|apply H|].
    { apply Forall2_fmap. eapply Forall2_impl; [exact Hns|]. intros v n. by apply prod_prep_num. }
    rewrite decide_False by naive_solver. apply product_ones.
Qed.
Lemma prod_lane_float vs : has_dtype DFloat (prod_lane DFloat vs) = true.
Proof. unfold prod_lane. by destruct (forallb nan_val vs). Qed.
Lemma int_not_nan dt v : dt <> DFloat -> arithmetic dt -> has_dtype dt v = true -> nan_val v = false.
Proof. intros Hf [->|[->| ->]] Hv; [done|by destruct v..]. Qed.

Lemma forallb_nan l : forallb id (nan_val <$> l) = forallb nan_val l.
Proof. induction l as [|v l IH]; [done|]. simpl. by f_equal. Qed.
Lemma larry_prod_eq y axis :
  valid y -> nonempty y -> arithmetic (ldtype y) -> axis_ok y axis ->
  (ldtype y = DFloat \/ axis = None \/ length (llabel y) = 1) ->
  exists o, larry_prod y axis = Ok o /\ reduction_of RProd y axis o.
Proof.
  intros Hv Hne Hd Hax Hcase. pose proof (valid_typed y Hv) as Hty. unfold larry_prod. rewrite test_mask_ok by done.
  cbn [mbind res_bind]. fold nan_val. change (nd_arr (lx y)) with (larr y). set (mask := amap nan_val (larr y)).
  assert (Hst : putmask_scalar (lx y) mask (VInt 1) = Ok (Nda (ldtype y) (amap (prod_prep (ldtype y)) (larr y)))).
  { unfold putmask_scalar. change (nd_dtype (lx y)) with (ldtype y). assert (store (ldtype y) (VInt 1) = Ok (one_of (ldtype y))) as ->.
    { by destruct Hd as [->|[->| ->]]. }
    cbn [mbind res_bind]. unfold mask. change (nd_arr (lx y)) with (larr y). by rewrite azip_amap. }
  rewrite Hst. cbn [mbind res_bind].
  destruct (map_valid y (ldtype y) (prod_prep (ldtype y)) Hv) as [Hv1 _].
  { intros v. by apply prod_prep_typed. }
  set (y1 := Larry (Nda (ldtype y) (amap (prod_prep (ldtype y)) (larr y))) (llabel y)) in *.
  destruct (red_dtype_ok RProd (ldtype y) Hd) as [dt' Hdt'].
  unfold larry_reduce. rewrite decide_False by (by apply (size_nonempty y1)).
  change (ldtype y1) with (ldtype y). rewrite Hdt'. cbn [mbind res_bind]. change (lndim y1) with (lndim y).
  change (llabel y1) with (llabel y). change (larr y1) with (amap (prod_prep (ldtype y)) (larr y)).
  destruct axis as [a|].
  - destruct Hax as [ax Hax]. assert (Hlt : ax < lndim y) by (rewrite <-valid_ndim by done; apply Hax).
    assert (py_index (lndim y) a = Some ax) as ->.
    { apply py_index_Some. rewrite <-valid_ndim by done. exact Hax. }
    cbn [of_opt mbind res_bind]. unfold mask. rewrite !reduce_amap.
    destruct (reduce_is_Some (fun l => forallb id (nan_val <$> l)) (larr y) ax) as [m Hm]; [by apply valid_wf|by apply lookup_lt_is_Some_2|].
    destruct (reduce_is_Some (fun l => red_lane RProd (ldtype y) (prod_prep (ldtype y) <$> l)) (larr y) ax) as [b Hb];
      [by apply valid_wf|by apply lookup_lt_is_Some_2|].
    rewrite Hm, Hb. cbn [of_opt mbind res_bind].
    destruct (reduce_Some _ _ _ _ (valid_wf y Hv) Hm) as (Hsm & Hwm & Hgm).
    destruct (reduce_Some _ _ _ _ (valid_wf y Hv) Hb) as (Hsb & Hwb & Hgb).
    assert (Hfb : forall l, forallb id (nan_val <$> l) = forallb nan_val l).
    { apply forallb_nan. }
    destruct (decide (length (llabel y) = 1)) as [H1|H1].
    + assert (Hs0 : remove_at ax (shape (larr y)) = []).
      { apply nil_length_inv. unfold remove_at. rewrite length_delete; [|by apply lookup_lt_is_Some_2].
        change (shape (larr y)) with (lshape y). fold (lndim y). rewrite <-valid_ndim by done. lia. }
      rewrite Hs0 in Hsm, Hsb. rewrite Hs0 in Hgm, Hgb. unfold as_out, nd_shape. cbn [nd_arr]. rewrite Hsb, Hsm.
      destruct (lane_is_Some (larr y) ax (insert_at ax 0 []) 0) as [vs Hvs]; [by apply valid_wf|by apply lookup_lt_is_Some_2| |].
      { assert (ax = 0) as ->.
        { rewrite <-valid_ndim in Hlt by done. lia. }
        simpl. destruct (llabel y) as [|l [|]] eqn:El; try done. pose proof (valid_shape y Hv) as Hsh. rewrite El in Hsh.
        change (shape (larr y)) with (lshape y). rewrite <-Hsh. simpl. constructor; [|constructor].
        assert (l <> []) by (unfold nonempty in Hne; rewrite El in Hne; by apply Forall_cons in Hne as [? _]). destruct l; [done|]. simpl. lia. }
      rewrite (Hgb []), Hvs by constructor. cbn [of_opt mbind res_bind fmap option_fmap option_map].
      assert (data m = [forallb nan_val vs]) as ->.
      { specialize (Hgm [] ltac:(constructor)). rewrite Hvs in Hgm. simpl in Hgm. unfold arr_wf, asize in Hwm. rewrite Hsm in Hwm. simpl in Hwm.
        unfold aget in Hgm. rewrite Hsm in Hgm. simpl in Hgm. destruct (data m) as [|c [|]]; try done.
         injection Hgm as ->. by rewrite Hfb. }
      eexists. split; [done|]. exists ax. split; [done|]. split; [intros _|lia].
      assert (Hlane : lane_of y ax [] vs).
      { destruct (llabel y) as [|l [|]] eqn:El; try done.
        assert (ax = 0) as -> by (rewrite <-valid_ndim, El in Hlt by done; simpl in Hlt; lia).
        destruct l as [|x0 l0] eqn:E0; [unfold nonempty in Hne; rewrite El in Hne; by apply Forall_cons in Hne as [? _]|].
        apply (lane_at_labels y 0 [0] [x0] vs Hv); [|exact Hvs]. rewrite El. constructor; [done|constructor]. }
      exists vs, (prod_lane (ldtype y) vs). split_and!; [|done|].
      * unfold prod_lane. simpl. rewrite andb_true_r. by destruct (forallb nan_val vs).
      * apply prod_lane_reduces; [done|]. by eapply lane_of_typed.
    + destruct Hcase as [Hf|[?|?]]; [|done..].
      destruct (reduce_out y ax DFloat (prod_lane DFloat) Hv Hlt Hne) as (c & Hc & H).
      { intros l _ _. apply prod_lane_float. }
      destruct H as [[? _]|[Hgt (z & -> & Ho & Hvz & Hcz)]]; [done|].
      assert (Hc' : reduce (fun l => (fun (mm : bool) u => if mm then VFloat NaN else u) (forallb id (nan_val <$> l))
          (red_lane RProd (ldtype y) (prod_prep (ldtype y) <$> l))) (larr y) ax = Some (azip (fun (mm : bool) u => if mm then VFloat NaN else u) m b)).
      { exact (azip_reduce (fun (mm : bool) u => if mm then VFloat NaN else u) _ _ _ _ _ _ Hm Hb). }
      assert (Some c = Some (azip (fun (mm : bool) u => if mm then VFloat NaN else u) m b)) as [= ->].
      { rewrite <-Hc, <-Hc'. unfold reduce. destruct (axlen _ _); [|done]. simpl. apply build_ext. intros idx _.
        destruct (lane (larr y) ax _) as [l|]; [|done]. simpl. f_equal. rewrite Hfb, Hf. done. }
      assert (Hdt2 : dt' = DFloat) by (rewrite Hf in Hdt'; simpl in Hdt'; congruence).
      assert (Hlen : length (shape m) = length (shape b)) by (by rewrite Hsm, Hsb).
      assert (Hs0 : shape b <> []).
      { rewrite Hsb. intros E%(f_equal length). unfold remove_at in E. rewrite length_delete in E; [|by apply lookup_lt_is_Some_2].
        change (shape (larr y)) with (lshape y) in E. fold (lndim y) in E. rewrite <-valid_ndim in E by done. simpl in E. lia. }
      unfold as_out, nd_shape. cbn [nd_arr]. destruct (shape b) as [|n0 sh0] eqn:Esb; [done|].
      destruct (shape m) as [|n1 sh1] eqn:Esm; [done|]. cbn [mbind res_bind]. unfold putmask_scalar. cbn [lx nd_dtype]. rewrite Hdt2.
      cbn [store mbind res_bind nd_arr]. simpl. eexists. split; [done|]. exists ax. split; [done|]. split; [lia|]. intros _.
      eexists. split_and!; [done|exact Hvz|done|]. intros ls Hg. destruct (Hcz ls Hg) as (vs & Hvn & Hvs & Hcell).
      exists vs, (prod_lane DFloat vs). split_and!; [done|exact Hcell|]. rewrite <-Hf. apply prod_lane_reduces; [done|]. by eapply lane_of_typed.
  - eexists. split; [done|]. exists (data (larr y)), (prod_lane (ldtype y) (data (larr y))). split_and!; [|by apply data_values|].
    + unfold prod_lane. unfold mask. simpl.
      assert (Hfb : forall l, forallb id (nan_val <$> l) = forallb nan_val l).
      { apply forallb_nan. }
      rewrite Hfb. by destruct (forallb nan_val (data (larr y))).
    + by apply prod_lane_reduces.
Qed.

(** An int or bool larry along one of several axes: NaN is written into the
    int array of products, whatever the elements. *)
Lemma larry_prod_int y a :
  valid y -> nonempty y -> ldtype y = DInt \/ ldtype y = DBool -> axis_ok y (Some a) -> 1 < length (llabel y) ->
  larry_prod y (Some a) = Err ValueError.
Proof.
  intros Hv Hne Hd0 Hax Hn. assert (Hd : arithmetic (ldtype y)) by (destruct Hd0 as [->| ->]; unfold arithmetic; auto).
  unfold larry_prod. rewrite test_mask_ok by done.
  cbn [mbind res_bind]. fold nan_val. change (nd_arr (lx y)) with (larr y). set (mask := amap nan_val (larr y)).
  assert (Hst : putmask_scalar (lx y) mask (VInt 1) = Ok (Nda (ldtype y) (amap (prod_prep (ldtype y)) (larr y)))).
  { unfold putmask_scalar. change (nd_dtype (lx y)) with (ldtype y). assert (store (ldtype y) (VInt 1) = Ok (one_of (ldtype y))) as ->.
    { by destruct Hd as [->|[->| ->]]. }
    cbn [mbind res_bind]. unfold mask. change (nd_arr (lx y)) with (larr y). by rewrite azip_amap. }
  rewrite Hst. cbn [mbind res_bind].
  destruct (map_valid y (ldtype y) (prod_prep (ldtype y)) Hv) as [Hv1 _].
  { intros v. apply prod_prep_typed. done. }
  set (y1 := Larry (Nda (ldtype y) (amap (prod_prep (ldtype y)) (larr y))) (llabel y)) in *.
  assert (red_dtype RProd (ldtype y) = Ok DInt) as Hdt by (by destruct Hd0 as [->| ->]).
  unfold larry_reduce. rewrite decide_False by (by apply (size_nonempty y1)).
  change (ldtype y1) with (ldtype y). rewrite Hdt. cbn [mbind res_bind]. change (lndim y1) with (lndim y).
  change (llabel y1) with (llabel y). change (larr y1) with (amap (prod_prep (ldtype y)) (larr y)).
  destruct Hax as [ax Hax]. assert (Hlt : ax < lndim y) by (rewrite <-valid_ndim by done; apply Hax).
  assert (py_index (lndim y) a = Some ax) as ->.
  { apply py_index_Some. rewrite <-valid_ndim by done. exact Hax. }
  cbn [of_opt mbind res_bind]. unfold mask. rewrite !reduce_amap.
  destruct (reduce_is_Some (fun l => forallb id (nan_val <$> l)) (larr y) ax) as [m Hm]; [by apply valid_wf|by apply lookup_lt_is_Some_2|].
  destruct (reduce_is_Some (fun l => red_lane RProd (ldtype y) (prod_prep (ldtype y) <$> l)) (larr y) ax) as [b Hb];
    [by apply valid_wf|by apply lookup_lt_is_Some_2|].
  rewrite Hm, Hb. cbn [of_opt mbind res_bind].
  destruct (reduce_Some _ _ _ _ (valid_wf y Hv) Hm) as (Hsm & _). destruct (reduce_Some _ _ _ _ (valid_wf y Hv) Hb) as (Hsb & _).
  assert (Hs0 : remove_at ax (shape (larr y)) <> []).
  { intros E%(f_equal length). unfold remove_at in E. rewrite length_delete in E; [|by apply lookup_lt_is_Some_2].
    change (shape (larr y)) with (lshape y) in E. fold (lndim y) in E. rewrite <-valid_ndim in E by done. simpl in E. lia. }
  unfold as_out, nd_shape. cbn [nd_arr]. rewrite Hsb, Hsm. by destruct (remove_at ax (shape (larr y))).
Qed.

Lemma larry_prod_empty y axis :
  valid y -> ~ nonempty y -> axis_ok y axis -> arithmetic (ldtype y) ->
  (ldtype y = DFloat \/ axis = None \/ length (llabel y) = 1) ->
  exists o, larry_prod y axis = Ok o /\ reduction_default (VFloat NaN) y axis o.
Proof.
  intros Hv Hne Hax Hd Hcase. unfold larry_prod. rewrite test_mask_ok by done.
  cbn [mbind res_bind]. fold nan_val. change (nd_arr (lx y)) with (larr y). set (mask := amap nan_val (larr y)).
  assert (Hsz : lsize y = 0).
  { destruct (decide (lsize y = 0)) as [|H]; [done|by apply size_nonempty in H]. }
  assert (Hdata : data (larr y) = []).
  { apply nil_length_inv. exact (eq_trans (valid_wf y Hv) Hsz). }
  assert (exists x1, putmask_scalar (lx y) mask (VInt 1) = Ok x1 /\ nd_dtype x1 = ldtype y /\ nd_shape x1 = lshape y) as (x1 & Hx1 & Hxd & Hxs).
  { unfold putmask_scalar. change (nd_dtype (lx y)) with (ldtype y). assert (store (ldtype y) (VInt 1) = Ok (one_of (ldtype y))) as ->.
    { by destruct Hd as [->|[->| ->]]. }
    cbn [mbind res_bind]. by eexists. }
  rewrite Hx1. cbn [mbind res_bind]. set (y1 := Larry x1 (llabel y)).
  assert (H1 : lsize y1 = 0). { unfold lsize, lshape, y1. cbn [lx]. rewrite Hxs. exact Hsz. }
  unfold larry_reduce. rewrite decide_True by done.
  destruct axis as [a|].
  - destruct Hax as [ax Hax]. assert (Hlt : ax < lndim y) by (rewrite <-valid_ndim by done; apply Hax).
    assert (Hn1 : lndim y1 = lndim y). { change (length (nd_shape x1) = length (lshape y)). by rewrite Hxs. }
    rewrite Hn1.
    assert (Hpi : py_index (lndim y) a = Some ax).
    { apply py_index_Some. rewrite <-valid_ndim by done. exact Hax. }
    rewrite Hpi. cbn [of_opt mbind res_bind].
    destruct (reduce_is_Some (forallb id) mask ax) as [m Hm]; [apply amap_wf; by apply valid_wf|by apply lookup_lt_is_Some_2|].
    rewrite Hm. assert (Hs1 : lshape y1 = lshape y) by exact Hxs. rewrite Hs1.
    destruct (reduce_Some _ _ _ _ (amap_wf _ _ (valid_wf y Hv)) Hm) as (Hsm & Hwm & Hgm).
    assert (Hsm2 : shape m = remove_at ax (lshape y)) by exact Hsm. clear Hsm; rename Hsm2 into Hsm. clear Hgm.
    assert (Hs : remove_at ax (lshape y) = length <$> remove_at ax (llabel y)) by (by rewrite remove_at_fmap, valid_shape).
    assert (Hlen : length (remove_at ax (llabel y)) = pred (length (llabel y))) by (apply remove_at_length, Hax).
    assert (Hpos : 0 < length (llabel y)) by (destruct Hax as [H _]; lia).
    destruct (decide (length (llabel y) = 1)) as [E1|E1].
    + assert (Hs0 : remove_at ax (lshape y) = []).
      { rewrite Hs. rewrite E1 in Hlen. by destruct (remove_at ax (llabel y)). }
      rewrite Hs0 in *. cbn [mbind res_bind of_opt]. rewrite Hsm. eexists. split; [done|].
      exists ax. split; [done|]. split; [|lia]. intros _. by destruct (forallb id (data m)).
    + destruct Hcase as [Hf|[?|?]]; [|done..].
      assert (Hs0 : remove_at ax (lshape y) <> []).
      { rewrite Hs. destruct (remove_at ax (llabel y)); [simpl in Hlen; lia|done]. }
      destruct (remove_at ax (lshape y)) as [|n0 sh0] eqn:Esh; [done|]. change (ldtype y1) with (nd_dtype x1).
      rewrite Hxd, Hf. cbn [store red_default mbind res_bind]. simpl (store _ _). cbn [mbind res_bind of_opt]. rewrite Hsm.
      set (z := Larry (Nda DFloat (full (n0 :: sh0) (VFloat NaN))) (remove_at ax (llabel y))).
      assert (Hz : valid z).
      { split_and!; simpl; [| | |].
        - apply nda_wf_get; [apply full_wf|]. simpl. intros idx v. rewrite get_full. case_decide; [|done]. by intros [= <-].
        - intros E. rewrite E in Hlen. simpl in Hlen. lia.
        - rewrite <-Hs. done.
        - unfold remove_at. apply Forall_delete. by apply valid_nodup. }
      unfold putmask_scalar. cbn [lx nd_dtype nd_arr store mbind res_bind]. simpl (store _ _). cbn [mbind res_bind].
      assert (Hfull : azip (fun (b : bool) u => if b then VFloat NaN else u) m (full (n0 :: sh0) (VFloat NaN)) = full (n0 :: sh0) (VFloat NaN)).
      { unfold azip, full. cbn [data]. rewrite Hsm. f_equal. unfold arr_wf, asize in Hwm. rewrite Hsm in Hwm. rewrite <-Hwm. clear.
        induction (data m) as [|b l IH]; [done|]. simpl. f_equal; [by destruct b|exact IH]. }
      exists (OLar z). split.
      { do 3 f_equal. unfold z. f_equal. f_equal. exact Hfull. }
      exists ax. split; [done|]. split; [lia|]. intros _. exists z. split_and!; [done..|].
      intros ls [idx Hl]%in_grid_labels_at. rewrite (cell_at z idx ls) by (done || by apply valid_nodup).
      unfold z, larr. cbn [lx nd_arr]. rewrite get_full, decide_True; [done|].
      exact (labels_in_range z idx ls Hz Hl).
  - assert (data mask = []) as -> by (unfold mask; simpl; by rewrite Hdata). eexists. split; [done|]. done.
Qed.

(** ** std *)
Definition std_of (sqrt : num -> num) (ddof : Z) (vs : list val) (v : val) : Prop :=
  exists m, reduces (RVar ddof) vs (VFloat m) /\ v = VFloat (sqrt m).
Lemma larry_std_total sqrt y axis ddof :
  valid y -> nonempty y -> arithmetic (ldtype y) -> axis_ok y axis ->
  exists o, larry_std sqrt y axis ddof = Ok o /\ reduction_by (std_of sqrt ddof) y axis o.
Proof.
  intros Hv Hne Hd Hax. unfold larry_std, larry_var.
  set (R := fun vs v => reduces (RVar ddof) vs v /\ exists m, v = VFloat m).
  assert (Hdt : red_dtype (RVar ddof) (ldtype y) = Ok DFloat) by (destruct Hd as [->|[->| ->]]; done).
  destruct (larry_reduce_gen (RVar ddof) y axis R DFloat Hv Hne Hax Hdt) as (o & Ho & H).
  { intros vs Hvn Ht. destruct (red_lane_spec (RVar ddof) (ldtype y) DFloat vs) as [H1 H2]; [done..|].
    split; [done|]. split; [done|]. destruct (red_lane _ _ vs); try done. eauto. }
  rewrite Ho. cbn [mbind res_bind]. eexists. split; [done|].
  assert (Hs : lsize y <> 0) by (by apply size_nonempty).
  set (root := fun v => match v with VFloat n => VFloat (sqrt n) | _ => v end).
  assert (HR : forall vs v, R vs v -> std_of sqrt ddof vs (root v)).
  { intros vs v [Hr [m ->]]. exists m. done. }
  destruct axis as [a|]; simpl in H |- *.
  - destruct H as (ax & Ha & H). exists ax. split; [done|]. destruct H as [[H1 (vs & v & -> & Hl & Hr)]|[H1 (z & -> & Hvz & Hlz & Hdz & Hc)]].
    + split; [|lia]. intros _. exists vs, (root v). rewrite decide_False by done. split_and!; [done|done|by apply HR].
    + split; [lia|]. intros _. rewrite decide_False by done.
      destruct (map_valid z (ldtype z) root Hvz) as [Hvr Hcr].
      { rewrite Hdz. intros v. by destruct v. }
      eexists. split_and!; [done|exact Hvr|done|]. intros ls Hg. destruct (Hc ls Hg) as (vs & v & Hl & Hcz & Hr).
      exists vs, (root v). split_and!; [done| |by apply HR]. rewrite Hcr, Hcz. done.
  - destruct H as (vs & v & -> & _ & Hvs & Hr). exists vs, (root v). rewrite decide_False by done. split_and!; [done|done|by apply HR].
Qed.
Lemma val_truth_false v : val_truth v = false <->
  v = VFloat (Fin 0%Qc) \/ v = VInt 0 \/ v = VBool false \/ v = VStr "" \/ v = VNone.
Proof.
  destruct v as [n|z|b|s| |o]; simpl; rewrite ?negb_false_iff, ?bool_decide_eq_true; split; intros H; subst; try tauto;
    try (repeat (destruct H as [H|H]; try done); by injection H as ->); by repeat (destruct H as [H|H]; try done).
Qed.
