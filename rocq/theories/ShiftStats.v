(** Which statistics follow which changes. *)
From Verif Require Export ShiftMain.
From Verif Require Import SpecFacts NumFacts NDArrayFacts.
From Verif Require CommuteFacts.

Lemma increasing_nan h : increasing h -> keeps_nan h.
Proof. by intros [H _]. Qed.
Lemma shifted_keeps c : keeps_nan (shifted c).
Proof. intros n. apply shifted_nan. Qed.
Lemma scaled_keeps c : c <> 0%Qc -> keeps_nan (scaled c).
Proof. intros Hc n. by apply scaled_nan. Qed.
Lemma neg_keeps : keeps_nan num_neg.
Proof. intros n. apply neg_nan. Qed.
Lemma pos_nonzero c : (0 < c)%Qc -> c <> 0%Qc.
Proof. intros Hc ->. by apply (Qclt_not_eq _ _ Hc). Qed.

(** * Centring *)
Lemma centre_shifted op c ns : op = RMean \/ op = RMedian -> centre_lane op (shifted c <$> ns) = centre_lane op ns.
Proof.
  intros Hop. unfold centre_lane. cbn zeta. rewrite filter_change by apply shifted_keeps. rewrite float_red_shifted by tauto. rewrite <-list_fmap_compose.
  apply list_fmap_ext. intros _ n _. simpl. apply sub_shifted.
Qed.
Lemma centre_scaled op c ns : (c <> 0%Qc /\ op = RMean) \/ ((0 < c)%Qc /\ op = RMedian) -> centre_lane op (scaled c <$> ns) = scaled c <$> centre_lane op ns.
Proof.
  intros Hop. assert (Hc : c <> 0%Qc) by (destruct Hop as [[? _]|[? _]]; [done|by apply pos_nonzero]). unfold centre_lane. cbn zeta. rewrite filter_change by (by apply scaled_keeps).
  assert (E : forall l, float_red op (scaled c <$> l) = scaled c (float_red op l)) by (intros l; destruct Hop as [[? ->]|[? ->]]; [apply float_red_scaled; auto|apply float_red_scaled_pos; auto]).
  rewrite E, <-!list_fmap_compose. apply list_fmap_ext. intros _ n _. simpl. by apply sub_scaled.
Qed.
Lemma zscore_shifted sqrt c ns : zscore_lane sqrt (shifted c <$> ns) = zscore_lane sqrt ns.
Proof. unfold zscore_lane. by rewrite centre_shifted by auto. Qed.
Lemma div_scaled_both c a b : (0 < c)%Qc -> num_div (scaled c a) (scaled c b) = num_div a b.
Proof.
  intros Hc. pose proof (pos_nonzero c Hc) as Hne. assert (E : Qc_ltb 0 c = true) by (by apply Qc_ltb_lt).
  assert (Hm : forall p, Qc_ltb 0 (p * c) = Qc_ltb 0 p /\ Qc_ltb (p * c) 0 = Qc_ltb p 0).
  { intros p. pose proof (increasing_ltb (scaled c) (Fin 0) (Fin p) (scaled_increasing c Hc)) as H1. pose proof (increasing_ltb (scaled c) (Fin p) (Fin 0) (scaled_increasing c Hc)) as H2.
    simpl in H1, H2. rewrite Qcmult_0_l in H1, H2. done. }
  assert (H0 : forall q, (q * c)%Qc = 0%Qc <-> q = 0%Qc).
  { intros q. split; [|intros ->; ring]. intros H. destruct (Qcmult_integral _ _ H); done. }
  destruct a as [p| | |], b as [q| | |]; simpl; unfold inf_sign; rewrite ?E; simpl; try done.
  - destruct (decide (q = 0%Qc)) as [Hq|Hq].
    + rewrite decide_True by (by rewrite H0). by destruct (Hm p) as [-> ->].
    + rewrite decide_False by (by rewrite H0). f_equal. field. done.
  - by destruct (Hm q) as [_ ->].
  - by destruct (Hm q) as [_ ->].
Qed.
Lemma zscore_scaled sqrt c ns : (0 < c)%Qc -> (forall v, sqrt (scaled (c * c) v) = scaled c (sqrt v)) -> zscore_lane sqrt (scaled c <$> ns) = zscore_lane sqrt ns.
Proof.
  intros Hc Hs. pose proof (pos_nonzero c Hc) as Hne. unfold zscore_lane. cbn zeta. rewrite centre_scaled by auto. rewrite filter_change by (by apply scaled_keeps). rewrite <-list_fmap_compose.
  apply list_fmap_ext. intros _ n _. simpl. destruct (filter (fun n => n <> NaN) (centre_lane RMean ns)) as [|m l] eqn:E.
  - by destruct (scaled c n), n.
  - change (num_div (scaled c n) (sqrt (num_var 0 (scaled c <$> (m :: l)))) = num_div n (sqrt (num_var 0 (m :: l)))). rewrite var_scaled, Hs by done. by apply div_scaled_both.
Qed.

(** * Ranks *)
Lemma filter_fmap_length {A B} (h : A -> B) (P : B -> Prop) (Q : A -> Prop) `{!forall x, Decision (P x)} `{!forall x, Decision (Q x)} (l : list A) :
  (forall x, P (h x) <-> Q x) -> length (filter P (h <$> l)) = length (filter Q l).
Proof.
  intros Hpq. induction l as [|x l IH]; [done|]. rewrite fmap_cons, !filter_cons. specialize (Hpq x). destruct (decide (P (h x))), (decide (Q x)); try tauto; simpl; by rewrite IH.
Qed.
Lemma nanrank_increasing h ns n : increasing h -> nanrank (h <$> ns) (h n) = nanrank ns n.
Proof.
  intros Hh. unfold nanrank. rewrite increasing_is_nan by done. destruct (is_nan n); [done|].
  rewrite (filter_fmap_length h _ (fun m => num_ltb m n = true)) by (intros m; by rewrite increasing_ltb).
  by rewrite (filter_fmap_length h _ (fun m => num_eqb m n = true)) by (intros m; by rewrite increasing_eqb).
Qed.
Lemma nanrankdata_increasing h ns : increasing h -> nanrankdata (h <$> ns) = nanrankdata ns.
Proof. intros Hh. unfold nanrankdata. rewrite <-list_fmap_compose. apply list_fmap_ext. intros _ n _. by apply nanrank_increasing. Qed.
Lemma ranking_increasing ndtri norm h ns : increasing h -> ranking_lane ndtri norm (h <$> ns) = ranking_lane ndtri norm ns.
Proof.
  intros Hh. unfold ranking_lane. cbn zeta. rewrite fmap_length, nanrankdata_increasing by done.
  rewrite (filter_fmap_length h _ (fun m => is_nan m = true)) by (intros m; by rewrite increasing_is_nan).
  assert (Hz : forall (b : bool) (m : num) idx, zip_with (fun (r n : num) => if b && negb (is_nan n) then m else r) idx (h <$> ns) = zip_with (fun (r n : num) => if b && negb (is_nan n) then m else r) idx ns).
  { intros b m idx. clear -Hh. revert idx. induction ns as [|n ns IH]; intros [|r idx]; try done. cbn [fmap list_fmap zip_with]. by rewrite increasing_is_nan, IH by done. }
  destruct norm; by rewrite Hz.
Qed.
Lemma lastrank_increasing h ns : increasing h -> finite_kept h -> lastrank_lane (h <$> ns) = lastrank_lane ns.
Proof.
  intros Hh Hf. unfold lastrank_lane. rewrite fmap_last. destruct (last ns) as [n|]; [|done]. cbn [fmap option_fmap option_map]. cbn zeta. rewrite Hf.
  rewrite (filter_fmap_length h _ (fun m => num_ltb m n = true)) by (intros m; by rewrite increasing_ltb).
  rewrite (filter_fmap_length h _ (fun m => num_eqb n m = true)) by (intros m; by rewrite increasing_eqb).
  rewrite (filter_fmap_length h _ (fun m => is_finite m = true)) by (intros m; by rewrite Hf). reflexivity.
Qed.
Lemma weigh_changed h p q ns ws : (forall n, p (h n) = q n) -> weigh p (h <$> ns) ws = weigh q ns ws.
Proof.
  intros H. unfold weigh. f_equal. revert ws. induction ns as [|n ns IH]; intros [|w ws]; try done. cbn [fmap list_fmap zip_with]. by rewrite H, IH.
Qed.
Lemma lastrank_decay_increasing exp decay h ns : increasing h -> finite_kept h -> lastrank_decay_lane exp decay (h <$> ns) = lastrank_decay_lane exp decay ns.
Proof.
  intros Hh Hf. unfold lastrank_decay_lane. cbn zeta. rewrite fmap_length, fmap_last. destruct (last ns) as [n|]; [|done]. cbn [fmap option_fmap option_map]. destruct (last _) as [wl|]; [|done].
  rewrite Hf. rewrite (weigh_changed h _ (fun m => num_ltb m n)) by (intros m; by rewrite increasing_ltb).
  rewrite (weigh_changed h _ (fun m => num_eqb n m)) by (intros m; by rewrite increasing_eqb). by rewrite (weigh_changed h _ is_finite) by apply Hf.
Qed.

(** * Groups *)
Lemma count_changed h ns : keeps_nan h -> length (filter (fun n => is_nan n = false) (h <$> ns)) = length (filter (fun n => is_nan n = false) ns).
Proof.
  intros Hh. apply filter_fmap_length. intros n. specialize (Hh n). destruct n as [?| | |], (h _) eqn:E; simpl; split; try done; intros _; exfalso; intuition congruence.
Qed.
Lemma gmean_scaled c ns : c <> 0%Qc -> gmean_lane (scaled c <$> ns) = scaled c <$> gmean_lane ns.
Proof.
  intros Hc. unfold gmean_lane. cbn zeta. rewrite fmap_length, count_changed by (by apply scaled_keeps). rewrite filter_change by (by apply scaled_keeps). rewrite fmap_replicate. f_equal.
  rewrite float_red_scaled by auto.
  assert (Hl : length (filter (fun n : num => is_nan n = false) ns) = length (filter (fun n : num => n <> NaN) ns)).
  { clear. induction ns as [|n ns IH]; [done|]. rewrite !filter_cons. destruct n; simpl; rewrite ?IH; done. }
  rewrite Hl. destruct (filter (fun n : num => n <> NaN) ns) as [|m l]; [done|]. destruct (num_of_nat_pos (length (m :: l))) as (q & -> & Hq); [simpl; lia|]. by apply scaled_div.
Qed.
Lemma gmedian_shifted c ns : gmedian_lane (shifted c <$> ns) = shifted c <$> gmedian_lane ns.
Proof. unfold gmedian_lane. rewrite fmap_length, filter_change, fmap_replicate by apply shifted_keeps. f_equal. apply float_red_shifted. auto. Qed.
Lemma gmedian_scaled c ns : (0 < c)%Qc -> gmedian_lane (scaled c <$> ns) = scaled c <$> gmedian_lane ns.
Proof. intros Hc. unfold gmedian_lane. rewrite fmap_length, filter_change, fmap_replicate by (by apply scaled_keeps, pos_nonzero). f_equal. apply float_red_scaled_pos; auto. Qed.

(** * Moving windows *)
Ltac destruct_is_nan := repeat match goal with |- context [is_nan ?a] => destruct (is_nan a) end.
Lemma win_changed h w ns i : keeps_nan h -> filter (fun n => n <> NaN) (drop (i - w) (take i (h <$> ns))) = h <$> filter (fun n => n <> NaN) (drop (i - w) (take i ns)).
Proof. intros Hh. rewrite <-fmap_take, <-fmap_drop. by apply filter_change. Qed.
Lemma stat_increasing op h w ns i : increasing h -> op = MMin \/ op = MMax -> stat_at op w (h <$> ns) i = h (stat_at op w ns i).
Proof.
  intros Hh [-> | ->]; unfold stat_at; cbn zeta; rewrite win_changed by (by apply increasing_nan); apply fold1_changed; try (by apply (proj1 Hh)); intros a b.
  - by apply min_changed.
  - by apply max_changed.
Qed.
Lemma stat_neg op op' w ns i : (op, op') ∈ [(MMax, MMin); (MMin, MMax)] -> stat_at op w (num_neg <$> ns) i = num_neg (stat_at op' w ns i).
Proof.
  intros H. rewrite !elem_of_cons, elem_of_nil in H. destruct H as [[= -> ->]|[[= -> ->]|[]]]; unfold stat_at; cbn zeta; rewrite win_changed by apply neg_keeps; apply fold1_neg; intros a b.
  - apply max_neg.
  - apply min_neg.
Qed.
Lemma run_count_changed h w ns i : keeps_nan h -> run_count w (h <$> ns) i = run_count w ns i.
Proof.
  intros Hh. assert (Hn : forall n, is_nan (h n) = is_nan n).
  { intros n. specialize (Hh n). destruct n as [?| | |], (h _) eqn:E; simpl; try done; exfalso; intuition congruence. }
  induction i as [|i IH]; [done|]. cbn [run_count]. cbn zeta. rewrite !list_lookup_fmap, IH. destruct (ns !! i) as [a|], (ns !! (i - w)) as [b|]; cbn [fmap option_fmap option_map]; rewrite ?Hn; done.
Qed.
Lemma run_sum_scaled c w ns i : c <> 0%Qc -> run_sum (fun n => n) w (scaled c <$> ns) i = scaled c (run_sum (fun n => n) w ns i).
Proof.
  intros Hc. assert (Hn : forall n, is_nan (scaled c n) = is_nan n).
  { intros n. pose proof (scaled_nan c n Hc) as H. destruct n as [?| | |], (scaled c _) eqn:E; simpl; try done; exfalso; intuition congruence. }
  induction i as [|i IH]; [by rewrite scaled_0|]. cbn [run_sum]. cbn zeta. rewrite !list_lookup_fmap, IH.
  destruct (ns !! i) as [a|], (ns !! (i - w)) as [b|]; cbn [fmap option_fmap option_map]; rewrite ?Hn; case_decide; destruct_is_nan; rewrite ?scaled_add, ?sub_scaled by done; done.
Qed.
Lemma num_of_Z_pos z : (0 < z)%Z -> exists q, num_of_Z z = Fin q /\ (0 < q)%Qc.
Proof. intros Hz. exists (Qc_of_Z z). split; [done|]. rewrite <-zero_Qc. by apply (num_of_Z_lt 0 z). Qed.
Lemma stat_scaled op c w ns i : c <> 0%Qc -> op = MSum \/ op = MMean -> stat_at op w (scaled c <$> ns) i = scaled c (stat_at op w ns i).
Proof.
  intros Hc Hop. unfold stat_at. cbn zeta. rewrite run_count_changed, run_sum_scaled by (done || by apply scaled_keeps).
  destruct Hop as [-> | ->]; case_decide as Hp; try done. destruct (num_of_Z_pos _ Hp) as (q & -> & Hq). by apply scaled_div.
Qed.
Lemma run_sum_shifted c w ns i : run_sum (fun n => n) w (shifted c <$> ns) i = num_add (run_sum (fun n => n) w ns i) (Fin (Qc_of_Z (run_count w ns i) * c)).
Proof.
  assert (Hn : forall n, is_nan (shifted c n) = is_nan n) by (by intros []).
  assert (H0 : num_of_Z 0 = num_add (num_of_Z 0) (Fin (Qc_of_Z 0 * c))) by (unfold num_of_Z; cbn [num_add]; f_equal; rewrite zero_Qc; ring).
  assert (Ha : forall s k (a : num), num_add (num_add s (Fin (Qc_of_Z k * c))) (shifted c a) = num_add (num_add s a) (Fin (Qc_of_Z (k + 1) * c))).
  { intros s k a. unfold shifted. rewrite Qc_of_Z_plus. assert (Qc_of_Z 1 = 1%Qc) as -> by (by apply Qc_is_canon). destruct s, a; unfold num_sub; cbn [num_add num_neg]; try done. f_equal. ring. }
  assert (Hs : forall s k (a : num), num_sub (num_add s (Fin (Qc_of_Z k * c))) (shifted c a) = num_add (num_sub s a) (Fin (Qc_of_Z (k - 1) * c))).
  { intros s k a. unfold shifted. replace (k - 1)%Z with (k + -1)%Z by lia. rewrite Qc_of_Z_plus. assert (Qc_of_Z (-1) = (-1)%Qc) as -> by (by apply Qc_is_canon). destruct s, a; unfold num_sub; cbn [num_add num_neg]; try done. f_equal. ring. }
  induction i as [|i IH]; [done|]. cbn [run_sum run_count]. cbn zeta. rewrite !list_lookup_fmap, IH.
  destruct (ns !! i) as [a|], (ns !! (i - w)) as [b|]; cbn [fmap option_fmap option_map]; rewrite ?Hn; case_decide; destruct_is_nan; rewrite ?Ha, ?Hs; done.
Qed.
Lemma stat_shifted c w ns i : stat_at MMean w (shifted c <$> ns) i = shifted c (stat_at MMean w ns i).
Proof.
  unfold stat_at. cbn zeta. rewrite run_count_changed by apply shifted_keeps. rewrite run_sum_shifted. case_decide as Hp; [|done].
  assert (Hq : (0 < Qc_of_Z (run_count w ns i))%Qc) by (rewrite <-zero_Qc; by apply (num_of_Z_lt 0)). unfold num_of_Z. revert Hq. generalize (Qc_of_Z (run_count w ns i)) as q. intros q Hq.
  pose proof (pos_nonzero _ Hq) as Hne. unfold shifted. destruct (run_sum _ w ns i) as [p| | |]; simpl; rewrite ?decide_False by done; simpl; try done; try (by case_match).
  f_equal. field. done.
Qed.

(** * Operators *)
Lemma arith_change op c h y : float_larry y -> arith_dtype op DFloat DFloat = Ok DFloat -> (forall n, float_arith op n (Fin c) = h n) ->
  larry_arith op y (OpScalar (VFloat (Fin c))) = Ok (revalued h y).
Proof.
  intros Hy Hop Hh. pose proof (float_data y Hy) as [Hwf Ht]. destruct Hy as [Hv Hd]. unfold larry_arith, larry_binary, scalar_nda. cbn [scalar_dtype of_opt mbind res_bind].
  unfold np_arith. change (nd_dtype (lx y)) with (ldtype y). rewrite Hd. cbn [nd_dtype]. rewrite Hop. cbn [mbind res_bind]. rewrite CommuteFacts.elementwise_scalar.
  assert (build (nd_shape (lx y)) (fun idx => u ← aget (nd_arr (lx y)) idx; arith_elem op DFloat u (VFloat (Fin c))) = Some (amap (change h) (larr y))) as ->.
  { apply build_Some. split; [done|]. split; [by apply amap_wf|]. intros idx Hi. rewrite get_amap. change (nd_arr (lx y)) with (larr y). destruct (aget (larr y) idx) as [v|] eqn:E; [|done].
    cbn [mbind option_bind fmap option_fmap option_map]. assert (Hf : has_dtype DFloat v = true).
    { unfold floats in Ht. rewrite Forall_forall in Ht. apply Ht. eapply elem_of_list_lookup_2. unfold aget in E. case_decide; [exact E|done]. }
    destruct v; try done. simpl. by rewrite Hh. }
  cbn [of_opt mbind res_bind]. unfold revalued. by rewrite Hd.
Qed.
Lemma neg_change y : float_larry y -> larry_neg y = Ok (revalued num_neg y).
Proof. intros [Hv Hd]. unfold larry_neg, np_neg. change (nd_dtype (lx y)) with (ldtype y). rewrite Hd. cbn [mbind res_bind]. unfold revalued. rewrite Hd. done. Qed.
Lemma ufunc_change f y : float_larry y -> larry_ufunc f y = Ok (revalued f y).
Proof.
  intros Hy. pose proof (float_data y Hy) as [Hwf Ht]. destruct Hy as [Hv Hd]. unfold larry_ufunc. rewrite Hd. unfold revalued. rewrite Hd. do 3 f_equal. unfold amap. f_equal. apply list_fmap_ext.
  intros i v Hi. unfold floats in Ht. rewrite Forall_forall in Ht. specialize (Ht v (elem_of_list_lookup_2 _ _ _ Hi)). by destruct v.
Qed.
Lemma decay_changed exp decay h y axis : float_larry y -> increasing h -> finite_kept h -> larry_lastrank_decay exp (revalued h y) axis decay = larry_lastrank_decay exp y axis decay.
Proof.
  intros Hy Hi Hf. unfold larry_lastrank_decay. change (lndim (revalued h y)) with (lndim y). assert (lsize (revalued h y) = lsize y) as -> by (unfold lsize, nd_size; done).
  destruct (py_index _ axis); [|done]. cbn [of_opt mbind res_bind]. rewrite !(reduce_nums_changed (fun _ => NaN)) by done.
  rewrite reduce_nums_changed by (done || (intros; by apply lastrank_decay_increasing)). rewrite lastrank_changed by (done || (intros; by apply lastrank_increasing)). done.
Qed.

(** * The methods *)
Lemma operators_change c y : float_larry y ->
  larry_arith AAdd y (OpScalar (VFloat (Fin c))) = Ok (revalued (shifted c) y) /\
  larry_arith AMul y (OpScalar (VFloat (Fin c))) = Ok (revalued (scaled c) y) /\
  larry_neg y = Ok (revalued num_neg y) /\
  (forall f, larry_ufunc f y = Ok (revalued f y)).
Proof.
  intros Hy. split_and!; [by apply arith_change|by apply arith_change|by apply neg_change|intros f; by apply ufunc_change].
Qed.
Lemma shift_reduce op c y axis : float_larry y -> op ∈ [RMean; RMedian; RMax; RMin] ->
  larry_reduce op (revalued (shifted c) y) axis = out_revalued (shifted c) <$> larry_reduce op y axis.
Proof.
  intros Hy Hop. rewrite !elem_of_cons, elem_of_nil in Hop. apply reduce_changed; [done|..|apply shifted_keeps|done|].
  1, 2: destruct Hop as [-> |[-> |[-> |[-> |[]]]]]; done.
  intros l _. apply float_red_shifted. tauto.
Qed.
Lemma var_float h k ddof y axis : float_larry y -> keeps_nan h -> k NaN = NaN -> (forall l, num_var ddof (h <$> l) = k (num_var ddof l)) ->
  larry_reduce (RVar ddof) (revalued h y) axis = out_revalued k <$> larry_reduce (RVar ddof) y axis.
Proof.
  intros Hy Hh Hk Hv. apply reduce_changed; [done..|]. intros [|n l] _; [symmetry; exact Hk|]. exact (Hv (n :: l)).
Qed.
Lemma shift_spread sqrt c ddof y axis : float_larry y -> sqrt NaN = NaN ->
  larry_reduce (RVar ddof) (revalued (shifted c) y) axis = larry_reduce (RVar ddof) y axis /\
  larry_std sqrt (revalued (shifted c) y) axis ddof = larry_std sqrt y axis ddof.
Proof.
  intros Hy Hs. split.
  - rewrite (var_float _ id) by (done || apply shifted_keeps || (intros; apply var_shifted)). apply out_revalued_id_res.
  - rewrite (std_changed sqrt _ id id) by (done || apply shifted_keeps || (intros; apply var_shifted)). apply out_revalued_id_res.
Qed.
Lemma shift_centred sqrt c y axis : float_larry y ->
  larry_demean (revalued (shifted c) y) axis = larry_demean y axis /\
  larry_demedian (revalued (shifted c) y) axis = larry_demedian y axis /\
  larry_zscore sqrt (revalued (shifted c) y) axis = larry_zscore sqrt y axis.
Proof.
  intros Hy. unfold larry_demean, larry_demedian, larry_zscore. split_and!.
  - rewrite (on_axis_changed _ (centre_lane RMean) _ id), changed_id_res; [done|done|]. intros ns. rewrite centre_shifted by auto. by rewrite list_fmap_id.
  - rewrite (on_axis_changed _ (centre_lane RMedian) _ id), changed_id_res; [done|done|]. intros ns. rewrite centre_shifted by auto. by rewrite list_fmap_id.
  - rewrite (on_axis_changed _ (zscore_lane sqrt) _ id), changed_id_res; [done|done|]. intros ns. rewrite zscore_shifted. by rewrite list_fmap_id.
Qed.
Lemma gmean_shifted c ns : gmean_lane (shifted c <$> ns) = shifted c <$> gmean_lane ns.
Proof.
  unfold gmean_lane. cbn zeta. rewrite fmap_length, count_changed by apply shifted_keeps. rewrite filter_change by apply shifted_keeps. rewrite fmap_replicate. f_equal.
  assert (Hl : length (filter (fun n : num => is_nan n = false) ns) = length (filter (fun n : num => n <> NaN) ns)).
  { clear. induction ns as [|n ns IH]; [done|]. rewrite !filter_cons. destruct n; simpl; rewrite ?IH; done. }
  rewrite Hl. destruct (filter (fun n : num => n <> NaN) ns) as [|m l]; [done|]. pose proof (mean_shifted c (m :: l)) as H. unfold num_mean in H. rewrite fmap_length in H. by apply H.
Qed.
Lemma shift_windows c y gr w axis : float_larry y ->
  larry_move MMean (revalued (shifted c) y) w axis = revalued (shifted c) <$> larry_move MMean y w axis /\
  (forall a, larry_group_mean (revalued (shifted c) y) gr a = revalued (shifted c) <$> larry_group_mean y gr a) /\
  (forall a, larry_group_median (revalued (shifted c) y) gr a = revalued (shifted c) <$> larry_group_median y gr a).
Proof.
  intros Hy. split_and!.
  - apply move_changed; [done| |done]. intros. apply stat_shifted.
  - intros a. apply group_changed; [done| |done]. intros. apply gmean_shifted.
  - intros a. apply group_changed; [done| |done]. intros. apply gmedian_shifted.
Qed.
Lemma scale_reduce op c y axis : float_larry y -> c <> 0%Qc -> op = RSum \/ op = RMean ->
  larry_reduce op (revalued (scaled c) y) axis = out_revalued (scaled c) <$> larry_reduce op y axis.
Proof.
  intros Hy Hc Hop. apply reduce_changed; [done|..|by apply scaled_keeps|done|].
  1, 2: destruct Hop as [-> | ->]; done.
  intros l _. by apply float_red_scaled.
Qed.
Lemma scale_methods c y gr w axis : float_larry y -> c <> 0%Qc ->
  (forall ddof, larry_reduce (RVar ddof) (revalued (scaled c) y) axis = out_revalued (scaled (c * c)) <$> larry_reduce (RVar ddof) y axis) /\
  larry_demean (revalued (scaled c) y) axis = revalued (scaled c) <$> larry_demean y axis /\
  (forall op, op = MSum \/ op = MMean -> larry_move op (revalued (scaled c) y) w axis = revalued (scaled c) <$> larry_move op y w axis) /\
  (forall a, larry_group_mean (revalued (scaled c) y) gr a = revalued (scaled c) <$> larry_group_mean y gr a).
Proof.
  intros Hy Hc. split_and!.
  - intros ddof. apply var_float; [done|by apply scaled_keeps|done|]. intros l. by apply var_scaled.
  - apply on_axis_changed; [done|]. intros ns. apply centre_scaled. auto.
  - intros op Hop. apply move_changed; [done| |done]. intros. by apply stat_scaled.
  - intros a. apply group_changed; [done| |done]. intros. by apply gmean_scaled.
Qed.
Lemma scale_positive_reduce op c y axis : float_larry y -> (0 < c)%Qc -> op ∈ [RSum; RMean; RMedian; RMax; RMin] ->
  larry_reduce op (revalued (scaled c) y) axis = out_revalued (scaled c) <$> larry_reduce op y axis.
Proof.
  intros Hy Hc Hop. rewrite !elem_of_cons, elem_of_nil in Hop. apply reduce_changed; [done|..|by apply scaled_keeps, pos_nonzero|done|].
  1, 2: destruct Hop as [-> |[-> |[-> |[-> |[-> |[]]]]]]; done.
  intros l _. apply float_red_scaled_pos; tauto.
Qed.
Lemma scale_positive_methods sqrt c y gr axis : float_larry y -> (0 < c)%Qc ->
  larry_demedian (revalued (scaled c) y) axis = revalued (scaled c) <$> larry_demedian y axis /\
  (forall a, larry_group_median (revalued (scaled c) y) gr a = revalued (scaled c) <$> larry_group_median y gr a) /\
  (sqrt NaN = NaN -> (forall v, sqrt (scaled (c * c) v) = scaled c (sqrt v)) ->
     (forall ddof, larry_std sqrt (revalued (scaled c) y) axis ddof = out_revalued (scaled c) <$> larry_std sqrt y axis ddof) /\
     larry_zscore sqrt (revalued (scaled c) y) axis = larry_zscore sqrt y axis).
Proof.
  intros Hy Hc. pose proof (pos_nonzero c Hc) as Hne. split_and!.
  - apply on_axis_changed; [done|]. intros ns. apply centre_scaled. auto.
  - intros a. apply group_changed; [done| |done]. intros. by apply gmedian_scaled.
  - intros Hs Hr. split.
    + intros ddof. apply (std_changed sqrt _ _ (scaled (c * c))); [done|by apply scaled_keeps|done|done| |done|done]. intros l _. by apply var_scaled.
    + unfold larry_zscore. rewrite (on_axis_changed _ (zscore_lane sqrt) _ id), changed_id_res; [done|done|]. intros ns. rewrite zscore_scaled by done. by rewrite list_fmap_id.
Qed.
Lemma negate_methods y w axis : float_larry y ->
  (forall op op', (op, op') ∈ [(RMax, RMin); (RMin, RMax); (RMedian, RMedian)] ->
     larry_reduce op (revalued num_neg y) axis = out_revalued num_neg <$> larry_reduce op' y axis) /\
  (forall op op', (op, op') ∈ [(MMax, MMin); (MMin, MMax)] ->
     larry_move op (revalued num_neg y) w axis = revalued num_neg <$> larry_move op' y w axis).
Proof.
  intros Hy. split; intros op op' Hop.
  - pose proof Hop as Hop'. rewrite !elem_of_cons, elem_of_nil in Hop. apply reduce_changed; [done|..|apply neg_keeps|done|].
    1, 2: destruct Hop as [[= -> ->]|[[= -> ->]|[[= -> ->]|[]]]]; done.
    intros l Hl. by apply float_red_neg.
  - apply move_changed; [done| |done]. intros. by apply stat_neg.
Qed.
Lemma increasing_extremes h y w axis : float_larry y -> increasing h ->
  (forall op, op = RMax \/ op = RMin -> larry_reduce op (revalued h y) axis = out_revalued h <$> larry_reduce op y axis) /\
  (forall op, op = MMax \/ op = MMin -> larry_move op (revalued h y) w axis = revalued h <$> larry_move op y w axis).
Proof.
  intros Hy Hh. assert (Hn : h NaN = NaN) by (by apply (proj1 Hh)). split; intros op Hop.
  - apply reduce_changed; [done|..|by apply increasing_nan|done|].
    1, 2: destruct Hop as [-> | ->]; done.
    intros l _. by apply float_red_increasing.
  - apply move_changed; [done| |done]. intros. apply stat_increasing; tauto.
Qed.
Lemma increasing_ranks ndtri exp h y gr axis norm a decay : float_larry y -> increasing h ->
  larry_ranking ndtri (revalued h y) axis norm = larry_ranking ndtri y axis norm /\
  larry_group_ranking (revalued h y) gr a = larry_group_ranking y gr a /\
  (finite_kept h -> larry_lastrank (revalued h y) a = larry_lastrank y a /\
     larry_lastrank_decay exp (revalued h y) a decay = larry_lastrank_decay exp y a decay).
Proof.
  intros Hy Hh. split_and!.
  - apply ranking_changed; [done|]. intros. by apply ranking_increasing.
  - unfold larry_group_ranking. rewrite (group_changed _ (ranking_lane id NormOne) h id), changed_id_res; [done|done| |done]. intros ms. rewrite ranking_increasing by done. by rewrite list_fmap_id.
  - intros Hf. split; [|by apply decay_changed]. apply lastrank_changed; [done|]. intros. by apply lastrank_increasing.
Qed.
Lemma increasing_both c : increasing (shifted c) /\ finite_kept (shifted c) /\ ((0 < c)%Qc -> increasing (scaled c) /\ finite_kept (scaled c)).
Proof.
  split_and!; [apply shifted_increasing|apply shifted_finite|]. intros Hc. split; [by apply scaled_increasing|by apply scaled_finite, pos_nonzero].
Qed.
