(** Normalising numbers that are normalised already. *)
From Verif Require Export SpecTwice.
From Coq Require Znumtheory.
From Verif Require Export Farray.
From Verif Require Import SpecFacts NumFacts ReduceFacts PickFacts RelabelLarry ReorderMain LaneFacts FarrayFacts RankLarry ShiftMain ShiftStats AstypeFacts SummaryFacts.

(** * Lanes of lanes *)
Lemma along_lane {A B} (P : A -> Prop) (f : list A -> list B) (a : arr A) (b : arr B) ax idx l :
  arr_wf a -> Forall P (data a) -> (forall l, Forall P l -> length (f l) = length l) ->
  along f a ax = Some b -> in_range (shape a) idx -> lane a ax idx = Some l -> lane b ax idx = Some (f l).
Proof.
  intros Hwf HP Hf Hb Hr Hl. assert (Hpl : Forall P l) by (by eapply lane_elems).
  apply build_Some in Hb as (Hs & Hbw & Hg). pose proof Hl as Hl0. apply lane_Some in Hl as (n & Hn & Hln & Hlk).
  apply lane_Some. exists n. split_and!; [by rewrite Hs|by rewrite Hf|]. intros k Hk.
  assert (Hri : in_range (shape a) (<[ax := k]> idx)).
  { rewrite <-(list_insert_id _ _ _ Hn). apply in_range_insert; [done|lia]. }
  rewrite Hg by done. rewrite lane_insert, Hl0. cbn [mbind option_bind]. rewrite list_lookup_insert; [done|].
  rewrite (in_range_length _ _ Hr). by eapply lookup_lt_Some.
Qed.
Lemma along_again {A B C} (P : A -> Prop) (f : list A -> list B) (g : list B -> list C) h (a : arr A) (b : arr B) ax :
  arr_wf a -> Forall P (data a) -> (forall l, Forall P l -> length (f l) = length l) -> (forall l, Forall P l -> g (f l) = h l) ->
  along f a ax = Some b -> along g b ax = along h a ax.
Proof.
  intros Hwf HP Hf Hg Hb. assert (shape b = shape a) as Hs by (by apply build_Some in Hb as (? & _)).
  assert (Hb0 := Hb). unfold along at 1. rewrite Hs. unfold along. apply NDArrayFacts.build_ext. intros idx Hr.
  assert (Hd : is_Some (aget b idx)). { apply build_Some in Hb as (_ & Hw & _). apply get_is_Some; [done|]. by rewrite Hs. }
  apply build_Some in Hb as (_ & _ & Hgx). rewrite Hgx in Hd by done.
  destruct (lane a ax idx) as [l|] eqn:El; [|by destruct Hd].
  rewrite (along_lane P f a b ax idx l) by done. cbn [mbind option_bind]. rewrite Hg; [done|]. by eapply lane_elems.
Qed.

(** Values that are numbers for which [Q] holds. *)
Definition holds_num (Q : num -> Prop) (v : val) : Prop := exists n, to_num v = Some n /\ Q n.
Lemma omap_length Q l : Forall (holds_num Q) l -> length (omap to_num l) = length l.
Proof. induction 1 as [|v l (n & Hn & _) _ IH]; [done|]. csimpl. rewrite Hn. simpl. by rewrite IH. Qed.
Lemma omap_forall Q l : Forall (holds_num Q) l -> Forall Q (omap to_num l).
Proof. induction 1 as [|v l (n & Hn & ?) _ IH]; [constructor|]. csimpl. rewrite Hn. by constructor. Qed.
Lemma omap_floats (ns : list num) : omap to_num (VFloat <$> ns) = ns.
Proof. induction ns as [|n ns IH]; [done|]. csimpl. by rewrite IH. Qed.
Lemma on_nums_again Q f g h l : (forall ns, Forall Q ns -> g (f ns) = h ns) -> Forall (holds_num Q) l -> on_nums g (on_nums f l) = on_nums h l.
Proof. intros H Hl. unfold on_nums. rewrite omap_floats, H; [done|]. by apply omap_forall. Qed.
Lemma on_nums_length Q f l : (forall ns, length (f ns) = length ns) -> Forall (holds_num Q) l -> length (on_nums f l) = length l.
Proof. intros H Hl. unfold on_nums. rewrite fmap_length, H. by eapply omap_length. Qed.

Lemma lanewise_again Q f g h x z axis : nda_wf x -> Forall (holds_num Q) (data (nd_arr x)) ->
  (forall ns, length (f ns) = length ns) -> (forall ns, Forall Q ns -> g (f ns) = h ns) ->
  lanewise f x axis = Ok z -> nd_dtype z = DFloat /\ nd_shape z = nd_shape x /\ lanewise g z axis = lanewise h x axis.
Proof.
  intros Hwf HQ Hf Hg H. unfold lanewise in H. apply bind_ok in H as (u & Hc & H). unfold lanewise. rewrite Hc. cbn [mbind res_bind]. destruct axis as [ax|].
  - apply bind_ok in H as (b & Hb & H). injection H as <-. apply of_opt_ok in Hb. cbn [check_numeric nd_dtype mbind res_bind nd_arr].
    split_and!; [done|by apply build_Some in Hb as (? & _)|].
    rewrite (along_again (holds_num Q) (on_nums f) (on_nums g) (on_nums h) (nd_arr x) b ax); [done|apply Hwf|done| |..|done].
    + intros l Hl. by eapply on_nums_length.
    + intros l Hl. by eapply on_nums_again.
  - injection H as <-. cbn [check_numeric nd_dtype mbind res_bind nd_arr data nd_shape shape]. split_and!; [done..|].
    by rewrite (on_nums_again Q f g h) by done.
Qed.
Lemma on_axis_again Q f g h x z axis : nda_wf x -> Forall (holds_num Q) (data (nd_arr x)) ->
  (forall ns, length (f ns) = length ns) -> (forall ns, Forall Q ns -> g (f ns) = h ns) ->
  on_axis f x axis = Ok z -> on_axis g z axis = on_axis h x axis.
Proof.
  intros Hwf HQ Hf Hg H. unfold on_axis in *. destruct axis as [a|].
  - apply bind_ok in H as (ax & Hax & H). destruct (lanewise_again Q f g h x z (Some ax) Hwf HQ Hf Hg H) as (_ & Hs & E).
    unfold nd_ndim in *. rewrite Hs, Hax. cbn [mbind res_bind]. exact E.
  - by destruct (lanewise_again Q f g h x z None Hwf HQ Hf Hg H) as (_ & Hs & E).
Qed.
Definition rank_axis (x : nda) (axis : option Z) : res (option nat) :=
  match axis with
  | None => Ok None
  | Some a => ax ← (if decide (a < 0)%Z then of_opt IndexError (py_index (nd_ndim x) a) else of_opt ValueError (py_index (nd_ndim x) a)); Ok (Some ax)
  end.
Lemma np_ranking_unfold ndtri x axis norm :
  np_ranking ndtri x axis norm = (ax ← rank_axis x axis; _ ← check_numeric x; match norm with NormBad => Err ValueError | _ => lanewise (ranking_lane ndtri norm) x ax end).
Proof. done. Qed.
Lemma ranking_after Q f ndtri x z axis norm : nda_wf x -> Forall (holds_num Q) (data (nd_arr x)) ->
  (forall ns, length (f ns) = length ns) -> (forall ns, Forall Q ns -> ranking_lane ndtri norm (f ns) = ranking_lane ndtri norm ns) ->
  on_axis f x axis = Ok z -> np_ranking ndtri z axis norm = np_ranking ndtri x axis norm.
Proof.
  intros Hwf HQ Hf Hg H. rewrite !np_ranking_unfold. unfold on_axis in H. destruct axis as [a|].
  - apply bind_ok in H as (ax & Hax & H). assert (Hc : check_numeric x = Ok ()) by (unfold lanewise in H; apply bind_ok in H as ([] & Hc & _); done).
    destruct (lanewise_again Q f (ranking_lane ndtri norm) (ranking_lane ndtri norm) x z (Some ax) Hwf HQ Hf Hg H) as (Hd & Hs & E).
    apply of_opt_ok in Hax. unfold norm_axis in Hax. unfold rank_axis, nd_ndim in *. rewrite Hs, Hax, Hc. unfold check_numeric. rewrite Hd.
    cbn [of_opt]. assert ((if decide (a < 0)%Z then Ok ax else Ok ax) = Ok ax) as -> by (by case_decide). cbn [mbind res_bind]. by destruct norm.
  - assert (Hc : check_numeric x = Ok ()) by (unfold lanewise in H; apply bind_ok in H as ([] & Hc & _); done).
    destruct (lanewise_again Q f (ranking_lane ndtri norm) (ranking_lane ndtri norm) x z None Hwf HQ Hf Hg H) as (Hd & Hs & E).
    rewrite Hc. unfold check_numeric. rewrite Hd. cbn [rank_axis mbind res_bind]. by destruct norm.
Qed.
Lemma ranking_again ndtri norm norm' x z axis : nda_wf x -> Forall (holds_num (fun _ => True)) (data (nd_arr x)) ->
  (forall ns, length (ranking_lane ndtri norm ns) = length ns) ->
  (forall ns, ranking_lane ndtri norm' (ranking_lane ndtri norm ns) = ranking_lane ndtri norm' ns) ->
  np_ranking ndtri x axis norm = Ok z -> np_ranking ndtri z axis norm' = np_ranking ndtri x axis norm'.
Proof.
  intros Hwf HQ Hf Hg H. rewrite !np_ranking_unfold in *. apply bind_ok in H as (ax & Hax & H). apply bind_ok in H as ([] & Hc & H).
  assert (lanewise (ranking_lane ndtri norm) x ax = Ok z) as Hl by (by destruct norm).
  destruct (lanewise_again (fun _ => True) _ (ranking_lane ndtri norm') (ranking_lane ndtri norm') x z ax Hwf HQ Hf ltac:(auto) Hl) as (Hd & Hs & E).
  assert (rank_axis z axis = Ok ax) as Hz by (unfold rank_axis, nd_ndim in *; by rewrite Hs). rewrite Hz, Hax, Hc. unfold check_numeric. rewrite Hd. cbn [mbind res_bind]. by destruct norm'.
Qed.

(** * Centred lanes *)
Definition tame (n : num) : Prop := n <> PInf /\ n <> NInf.
Lemma tame_lane ns : Forall tame ns -> no_infinity ns.
Proof. intros H n Hn. rewrite Forall_forall in H. destruct (H n Hn). by destruct n. Qed.
Lemma shifted_0 n : shifted 0 n = n.
Proof. destruct n; try done. unfold shifted. cbn. f_equal. ring. Qed.
Lemma all_nan ns : filter (fun n => n <> NaN) ns = [] -> ns = replicate (length ns) NaN.
Proof.
  induction ns as [|n ns IH]; [done|]. rewrite filter_cons. destruct (decide (n <> NaN)) as [|Hn]; [done|]. intros H. simpl. rewrite <-IH by done. f_equal. by destruct (decide (n = NaN)).
Qed.
Lemma centre_finite op ns : op = RMean \/ op = RMedian -> Forall tame ns -> filter (fun n => n <> NaN) ns <> [] ->
  is_finite (float_red op (filter (fun n => n <> NaN) ns)) = true.
Proof.
  intros Hop Ht Hp. pose proof (no_infinity_present ns (tame_lane ns Ht)) as Hfin. unfold present in Hfin. set (l := filter _ ns) in *.
  destruct Hop as [-> | ->].
  - destruct (finite_fin _ Hfin) as [qs Hqs]. assert (Hqn : qs <> []) by (intros ->; by rewrite Hqs in Hp).
    destruct l as [|n l'] eqn:El; [done|]. cbn [float_red]. rewrite Hqs.
    enough (exists m, num_mean (Fin <$> qs) = Fin m) as [m ->] by done. rewrite SummaryFacts.num_mean_fin by done. eauto.
  - pose proof (float_red_spec RMedian l ltac:(done) ltac:(done) ltac:(done) Hp (present_self ns)) as (s & Hs & _ & Hmid).
    assert (Hsf : Forall (fun n => is_finite n = true) s) by (by rewrite Hs).
    assert (Hlk : forall k n, s !! k = Some n -> is_finite n = true) by (rewrite Forall_lookup in Hsf; eauto).
    case_decide; [by eapply Hlk|]. destruct Hmid as (a & b & Ha%Hlk & Hb%Hlk & ->). by destruct a, b.
Qed.
Lemma centre_is_shift op ns : op = RMean \/ op = RMedian -> Forall tame ns -> exists c, centre_lane op ns = shifted c <$> ns.
Proof.
  intros Hop Ht. unfold centre_lane. destruct (decide (filter (fun n => n <> NaN) ns = [])) as [E|E].
  - exists 0%Qc. rewrite E. apply all_nan in E. rewrite E. by rewrite !fmap_replicate.
  - pose proof (centre_finite op ns Hop Ht E) as Hf. destruct (float_red op _) as [m| | |]; try done. by exists (- m)%Qc.
Qed.
Lemma centre_again op op' ns : op = RMean \/ op = RMedian -> op' = RMean \/ op' = RMedian -> Forall tame ns ->
  centre_lane op' (centre_lane op ns) = centre_lane op' ns.
Proof. intros H H' Ht. destruct (centre_is_shift op ns H Ht) as [c ->]. by apply centre_shifted. Qed.
Lemma zscore_again op sqrt ns : op = RMean \/ op = RMedian -> Forall tame ns -> zscore_lane sqrt (centre_lane op ns) = zscore_lane sqrt ns.
Proof. intros H Ht. destruct (centre_is_shift op ns H Ht) as [c ->]. by apply zscore_shifted. Qed.
Lemma rank_again op ndtri norm ns : op = RMean \/ op = RMedian -> Forall tame ns -> ranking_lane ndtri norm (centre_lane op ns) = ranking_lane ndtri norm ns.
Proof. intros H Ht. destruct (centre_is_shift op ns H Ht) as [c ->]. apply ranking_increasing. apply increasing_both. Qed.

(** * Scaled lanes *)
Definition nans (ns : list num) : list num := replicate (length ns) NaN.
Lemma filter_nans k : filter (fun n => n <> NaN) (replicate k NaN) = [].
Proof. induction k as [|k IH]; [done|]. simpl. rewrite filter_cons, IH. by rewrite decide_False by tauto. Qed.
Lemma centre_nans op k : centre_lane op (replicate k NaN) = replicate k NaN.
Proof. unfold centre_lane. rewrite fmap_replicate. done. Qed.
Lemma zscore_nans sqrt k : zscore_lane sqrt (replicate k NaN) = replicate k NaN.
Proof. unfold zscore_lane. rewrite centre_nans, fmap_replicate. done. Qed.
Lemma Qcle_square (q : Qc) : (0 <= q * q)%Qc.
Proof.
  destruct q as [q Hq]. unfold Qcle, Qcmult. cbn [this Q2Qc]. change (Qred 0) with 0%Q. rewrite Qred_correct. generalize q. clear. intros q.
  unfold Qle, Qmult. cbn [Qnum Qden]. pose proof (Z.square_nonneg (Qnum q)). change (Qnum 0) with 0%Z. change (Qden 0) with 1%positive. lia.
Qed.
Lemma Qcinv_pos (q : Qc) : (0 < q)%Qc -> (0 < / q)%Qc.
Proof. unfold Qclt, Qcinv. cbn [this Q2Qc]. change (Qred 0) with 0%Q. intros H. rewrite Qred_correct. by apply Qinv_lt_0_compat. Qed.
Lemma sum_squares_zero qs s : (0 <= s)%Qc -> foldl Qcplus s ((fun q => q * q)%Qc <$> qs) = 0%Qc -> s = 0%Qc /\ Forall (fun q => q = 0%Qc) qs.
Proof.
  revert s. induction qs as [|q qs IH]; intros s Hs; [by split|]. cbn [fmap list_fmap foldl]. intros H.
  assert (Hq : (0 <= q * q)%Qc). { apply Qcle_square. }
  assert (Hsum : (0 <= s + q * q)%Qc). { rewrite <-(Qcplus_0_l 0). by apply Qcplus_le_compat. }
  destruct (IH _ Hsum H) as [E Hqs].
  assert (s = 0%Qc) as ->. { apply Qcle_antisym; [|done]. rewrite <-E. rewrite <-(Qcplus_0_r s) at 1. apply Qcplus_le_compat; [apply Qcle_refl|done]. }
  rewrite Qcplus_0_l in E. split; [done|]. constructor; [|done]. apply Qcmult_integral in E. tauto.
Qed.
Lemma fold_fin (qs : list Qc) s : fold_left num_add (Fin <$> qs) (Fin s) = Fin (foldl Qcplus s qs).
Proof. revert s. induction qs as [|q qs IH]; intros s; [done|]. cbn [fmap list_fmap fold_left foldl num_add]. apply IH. Qed.
Lemma var_zero qs : qs <> [] -> exists v, num_var 0 (Fin <$> qs) = Fin v /\ (v = 0%Qc -> exists m, num_mean (Fin <$> qs) = Fin m /\ Forall (fun q => q = m) qs).
Proof.
  intros Hq. unfold num_var. cbn zeta. rewrite (num_mean_fin qs Hq). set (m := (Qc_sum qs / _)%Qc). rewrite fmap_length.
  rewrite <-list_fmap_compose. assert (((fun n => num_mul (num_sub n (Fin m)) (num_sub n (Fin m))) ∘ Fin) <$> qs = Fin <$> ((fun q => q * q)%Qc <$> ((fun q => q - m)%Qc <$> qs))) as ->.
  { rewrite <-!list_fmap_compose. done. }
  unfold num_of_Z. rewrite fold_fin. rewrite Z.sub_0_r. assert (Qc_of_Z (Z.of_nat (length qs)) <> 0%Qc) as Hn by (apply Qc_of_Z_neq0; destruct qs; [done|simpl; lia]).
  cbn [num_div]. rewrite decide_False by done. eexists. split; [done|]. intros Hz. exists m. split; [done|].
  assert (foldl Qcplus (Qc_of_Z 0) ((fun q => q * q)%Qc <$> ((fun q => q - m)%Qc <$> qs)) = 0%Qc) as Hs.
  { match type of Hz with (?a / ?b)%Qc = _ => transitivity (a / b * b)%Qc; [by field|rewrite Hz; ring] end. }
  apply sum_squares_zero in Hs as [_ Hs]; [|by replace (Qc_of_Z 0) with 0%Qc by (by apply Qc_is_canon)]. apply Forall_fmap in Hs. eapply Forall_impl; [exact Hs|]. intros q E. simpl in E.
  replace q with ((q - m) + m)%Qc by ring. rewrite E. ring.
Qed.
(** What [zscore] does to a lane. *)
Lemma zscore_cases sqrt ns : square_root sqrt -> Forall tame ns ->
  zscore_lane sqrt ns = replicate (length ns) NaN \/ exists r, (0 < r)%Qc /\ zscore_lane sqrt ns = scaled r <$> centre_lane RMean ns.
Proof.
  intros (Hs0 & Hs1 & _) Ht. unfold zscore_lane. set (arr := centre_lane RMean ns). cbn zeta.
  assert (Hlen : length arr = length ns) by apply centre_length.
  assert (Hnan : forall g, Forall (fun n => g n = NaN) arr -> (g <$> arr) = replicate (length ns) NaN).
  { intros g Hg. rewrite <-Hlen. clear -Hg. induction Hg as [|n l Hn _ IH]; [done|]. csimpl. by rewrite Hn, IH. }
  destruct (filter (fun n => n <> NaN) arr) as [|x l] eqn:El.
  { left. apply Hnan. apply Forall_forall. intros n _. by destruct n. }
  rewrite <-El. destruct (centre_is_shift RMean ns (or_introl eq_refl) Ht) as [c Hc]. fold arr in Hc.
  assert (Hta : Forall tame arr). { rewrite Hc. apply Forall_fmap. eapply Forall_impl; [exact Ht|]. intros [] [? ?]; by split. }
  pose proof (no_infinity_present _ (tame_lane _ Hta)) as Hfin. unfold present in Hfin. destruct (finite_fin _ Hfin) as [qs Hqs].
  assert (Hqn : qs <> []) by (intros ->; by rewrite El in Hqs). destruct (var_zero qs Hqn) as (v & Hv & Hz). rewrite Hqs, Hv.
  destruct (Hs1 v) as [-> | (r & -> & Hr & Hr0)].
  { left. apply Hnan. apply Forall_forall. intros n _. by destruct n. }
  destruct (decide (r = 0%Qc)) as [->|Hrn].
  - left. specialize (Hr0 eq_refl). destruct (Hz Hr0) as (m & Hm & Hall).
    assert (centre_lane RMean arr = arr) as Hid by (apply (centre_again RMean RMean); auto).
    unfold centre_lane in Hid. rewrite Hqs in Hid. assert (float_red RMean (Fin <$> qs) = Fin m) as Hfr by (destruct qs; done). rewrite Hfr in Hid.
    apply Hnan. apply Forall_forall. intros n Hn. destruct (decide (n = NaN)) as [->|Hnn]; [done|].
    assert (n ∈ Fin <$> qs) as Hi. { rewrite <-Hqs. apply elem_of_list_filter. done. }
    apply elem_of_list_fmap in Hi as (q & -> & Hq). rewrite Forall_forall in Hall. rewrite (Hall q Hq) in *.
    apply elem_of_list_lookup in Hn as [k Hk]. assert (Hk' := Hk). rewrite <-Hid in Hk'. rewrite list_lookup_fmap, Hk in Hk'. cbn [fmap option_fmap option_map] in Hk'.
    apply (inj Some) in Hk'. unfold num_sub in Hk'. cbn [num_neg num_add] in Hk'. assert (m + - m = m)%Qc as E by congruence. rewrite Qcplus_opp_r in E. subst m.
    cbn [num_div]. rewrite decide_True by done. done.
  - right. exists (/ r)%Qc. assert (0 < r)%Qc as Hp. { apply Qcle_lt_or_eq in Hr as [?|?]; congruence. }
    split.
    + apply Qcinv_pos. exact Hp.
    + apply list_fmap_ext. intros k n Hn. apply elem_of_list_lookup_2 in Hn. rewrite Forall_forall in Hta. destruct (Hta n Hn). unfold scaled. destruct n; try done. cbn [num_div num_mul]. by rewrite decide_False.
Qed.
Lemma zscore_twice sqrt ns : square_root sqrt -> Forall tame ns -> zscore_lane sqrt (zscore_lane sqrt ns) = zscore_lane sqrt ns.
Proof.
  intros Hs Ht. destruct (zscore_cases sqrt ns Hs Ht) as [E|(r & Hr & E)].
  - by rewrite E, zscore_nans.
  - rewrite E at 1. rewrite zscore_scaled; [|done|intros v; by apply Hs]. apply zscore_again; auto.
Qed.
Lemma demean_zscore sqrt ns : square_root sqrt -> Forall tame ns -> centre_lane RMean (zscore_lane sqrt ns) = zscore_lane sqrt ns.
Proof.
  intros Hs Ht. destruct (zscore_cases sqrt ns Hs Ht) as [E|(r & Hr & E)].
  - by rewrite E, centre_nans.
  - rewrite E. rewrite centre_scaled by (left; split; [by apply pos_nonzero|done]). f_equal. apply centre_again; auto.
Qed.

(** * Ranks of ranks *)
Definition rising (h : num -> num) (ns : list num) : Prop :=
  (forall n, n ∈ ns -> is_nan (h n) = is_nan n) /\
  forall a b, a ∈ ns -> b ∈ ns -> num_ltb (h a) (h b) = num_ltb a b /\ num_eqb (h a) (h b) = num_eqb a b.
Lemma filter_fmap_length_in {A B} (h : A -> B) (P : B -> Prop) (Q : A -> Prop) `{!forall x, Decision (P x)} `{!forall x, Decision (Q x)} (l : list A) :
  (forall x, x ∈ l -> P (h x) <-> Q x) -> length (filter P (h <$> l)) = length (filter Q l).
Proof.
  induction l as [|x l IH]; intros Hpq; [done|]. rewrite fmap_cons, !filter_cons. assert (Hx := Hpq x ltac:(left)). specialize (IH ltac:(intros y Hy; apply Hpq; by right)).
  destruct (decide (P (h x))), (decide (Q x)); try tauto; simpl; by rewrite IH.
Qed.
Lemma nanrank_rising h ns n : rising h ns -> n ∈ ns -> nanrank (h <$> ns) (h n) = nanrank ns n.
Proof.
  intros [Hn Hh] Hi. unfold nanrank. rewrite Hn by done. destruct (is_nan n); [done|].
  rewrite (filter_fmap_length_in h _ (fun m => num_ltb m n = true)) by (intros m Hm; by rewrite (proj1 (Hh m n Hm Hi))).
  by rewrite (filter_fmap_length_in h _ (fun m => num_eqb m n = true)) by (intros m Hm; by rewrite (proj2 (Hh m n Hm Hi))).
Qed.
Lemma ranking_rising ndtri norm h ns : rising h ns -> ranking_lane ndtri norm (h <$> ns) = ranking_lane ndtri norm ns.
Proof.
  intros Hh. unfold ranking_lane. cbn zeta.
  assert (nanrankdata (h <$> ns) = nanrankdata ns) as ->.
  { unfold nanrankdata. rewrite <-list_fmap_compose. apply list_fmap_ext. intros i n Hn. apply nanrank_rising; [done|]. by eapply elem_of_list_lookup_2. }
  destruct Hh as [Hh _]. rewrite fmap_length.
  rewrite (filter_fmap_length_in h _ (fun m => is_nan m = true)) by (intros m Hm; by rewrite Hh).
  assert (Hz : forall (b : bool) (m : num) idx, zip_with (fun (r n : num) => if b && negb (is_nan n) then m else r) idx (h <$> ns) = zip_with (fun (r n : num) => if b && negb (is_nan n) then m else r) idx ns).
  { intros b m. clear -Hh. induction ns as [|n ns IH]; intros [|r idx]; try done. cbn [fmap list_fmap zip_with]. rewrite Hh by left. rewrite IH; [done|]. intros k Hk. apply Hh. by right. }
  destruct norm; by rewrite Hz.
Qed.
Lemma rising_of h ns : (forall n, n ∈ ns -> h n = NaN <-> n = NaN) -> (forall a b, a ∈ ns -> b ∈ ns -> num_lt a b -> num_lt (h a) (h b)) -> rising h ns.
Proof.
  intros Hn Hl. assert (Hb : forall n, is_nan n = true <-> n = NaN) by (by intros []).
  split; [intros n Hi; apply eq_true_iff_eq; by rewrite !Hb, Hn|]. intros a b Ha Hb'.
  assert (Hirr : forall n, ~ num_lt n n) by apply num_lt_irrefl.
  assert (Hltb : forall a b, a ∈ ns -> b ∈ ns -> num_ltb (h a) (h b) = true -> num_lt a b).
  { clear a b Ha Hb'. intros a b Ha Hb' Hab. apply NumFacts.num_ltb_lt in Hab. destruct (num_lt_nan _ _ Hab) as [Ea Eb].
    rewrite Hn in Ea, Eb by done. destruct (num_trichotomy a b Ea Eb) as [H|[->|H]]; [done|by destruct (Hirr (h b))|].
    apply (Hl b a) in H; [|done..]. destruct (Hirr (h a)). by eapply num_lt_trans. }
  split; apply eq_true_iff_eq; [split|].
  - intros H. apply NumFacts.num_ltb_lt. by apply Hltb.
  - intros H. apply NumFacts.num_ltb_lt. apply Hl; [done..|]. by apply NumFacts.num_ltb_lt.
  - rewrite !ShiftFacts.num_eqb_same. split.
    + intros [E Ea]. assert (Ea' := Ea). rewrite Hn in Ea' by done. rewrite E, Hn in Ea by done. split; [|done].
      destruct (num_trichotomy a b Ea' Ea) as [H|[->|H]]; [|done|]; apply Hl in H; try done; rewrite E in H; by destruct (Hirr (h b)).
    + intros [-> E]. split; [done|]. by rewrite Hn.
Qed.
Lemma count_apart a b ns : num_lt a b -> count_lt a ns + count_eq a ns <= count_lt b ns.
Proof.
  intros H. unfold count_lt, count_eq. induction ns as [|n ns IH]; [done|]. rewrite !filter_cons.
  destruct (decide (num_lt n a)) as [H1|H1], (decide (n = a)) as [->|H2].
  - by destruct (num_lt_irrefl a).
  - rewrite (decide_True (P := num_lt n b)) by (by eapply num_lt_trans). simpl. lia.
  - rewrite (decide_True (P := num_lt a b)) by done. simpl. lia.
  - destruct (decide (num_lt n b)); simpl; lia.
Qed.
Lemma count_eq_pos b ns : b ∈ ns -> 1 <= count_eq b ns.
Proof.
  intros H. unfold count_eq. assert (b ∈ filter (fun m => m = b) ns) as Hi by (by apply elem_of_list_filter). destruct (filter _ ns); [by apply elem_of_nil in Hi|simpl; lia].
Qed.
Lemma nanrank_rises a b ns : b ∈ ns -> num_lt a b -> num_lt (nanrank ns a) (nanrank ns b).
Proof.
  intros Hb H. destruct (num_lt_nan _ _ H) as [Ea Eb]. rewrite !nanrank_fin by done. cbn [num_lt].
  pose proof (count_apart a b ns H). pose proof (count_eq_pos b ns Hb).
  assert (forall l e, (Qc_of_Z (Z.of_nat l) + Qc_of_Z (Z.of_nat e + 1) / Qc_of_Z 2 = Qc_of_Z (2 * Z.of_nat l + Z.of_nat e + 1) * / Qc_of_Z 2)%Qc) as E.
  { intros l e. rewrite <-Z.add_assoc, (Qc_of_Z_plus (2 * Z.of_nat l)), Qc_of_Z_mul. field. done. }
  rewrite !E. apply Qcmult_lt_compat_r; [apply Qcinv_pos; by apply Qc_of_Z_pos|]. apply (num_of_Z_lt). lia.
Qed.
Lemma increasing_comp f g : increasing f -> increasing g -> increasing (fun n => f (g n)).
Proof. intros [Hf Hf'] [Hg Hg']. split; [intros n; by rewrite Hf, Hg|]. auto. Qed.
Lemma div_is_scaled q n : (0 < q)%Qc -> num_div n (Fin q) = scaled (/ q) n.
Proof.
  intros Hq. pose proof (pos_nonzero q Hq) as Hn. assert (Qc_ltb 0 (/ q) = true) as E. { apply Qc_ltb_lt. by apply Qcinv_pos. }
  assert (Qc_ltb q 0 = false) as E2. { apply not_true_iff_false. intros H%Qc_ltb_lt. by apply (Qclt_not_le _ _ H), Qclt_le_weak. }
  unfold scaled. destruct n; cbn [num_div num_mul]; rewrite ?E2; unfold inf_sign; rewrite ?E; try done. by rewrite decide_False.
Qed.
Lemma increasing_ext f g : (forall n, f n = g n) -> increasing g -> increasing f.
Proof. intros E [H1 H2]. split; [intros n; by rewrite E|intros a b; rewrite !E; auto]. Qed.
Lemma sub_is_shifted z n : num_sub n (num_of_Z z) = shifted (- Qc_of_Z z) n.
Proof. done. Qed.
Lemma two_present a b ns : a ∈ ns -> b ∈ ns -> num_lt a b -> 2 <= length (filter (fun n => is_nan n = false) ns).
Proof.
  intros Ha Hb H. destruct (num_lt_nan _ _ H) as [Ea Eb].
  assert (forall c, c ∈ ns -> c <> NaN -> c ∈ filter (fun n => is_nan n = false) ns) as Hc by (intros [] ? ?; by apply elem_of_list_filter).
  specialize (Hc a Ha Ea) as Ha'. specialize (Hc b Hb Eb) as Hb'. destruct (filter _ ns) as [|x [|y l]]; [by apply elem_of_nil in Ha'| |simpl; lia].
  apply elem_of_list_singleton in Ha', Hb'. subst. by destruct (num_lt_irrefl x).
Qed.
Lemma count_split ns : length ns = length (filter (fun n => is_nan n = true) ns) + length (filter (fun n => is_nan n = false) ns).
Proof. induction ns as [|n ns IH]; [done|]. rewrite !filter_cons. destruct (is_nan n); simpl; lia. Qed.
Lemma zip_fmap (f : num -> num) (g : num -> num -> num) ns : zip_with g (f <$> ns) ns = (fun n => g (f n) n) <$> ns.
Proof. induction ns as [|n ns IH]; [done|]. csimpl. by rewrite IH. Qed.
Lemma ranking_is_rising ndtri norm ns : norm = NormOne \/ norm = NormN -> exists h, rising h ns /\ ranking_lane ndtri norm ns = h <$> ns.
Proof.
  intros Hnorm. set (len := Z.of_nat (length ns)). set (c := (len - Z.of_nat (length (filter (fun n => is_nan n = true) ns)))%Z).
  pose proof (count_split ns) as Hsplit. assert (Hc : c = Z.of_nat (length (filter (fun n => is_nan n = false) ns))) by (unfold c, len; lia).
  assert (exists A mid, (2 <= c -> increasing A)%Z /\ A NaN = NaN /\ is_nan mid = false /\
    ranking_lane ndtri norm ns = (fun n => if bool_decide (c = 1%Z) && negb (is_nan n) then mid else A (nanrank ns n)) <$> ns) as (A & mid & HA & HAn & Hmid & E).
  { destruct Hnorm as [-> | ->].
    - eexists (fun r => num_sub (num_mul (num_div (num_sub r (num_of_Z 1)) (num_of_Z (c - 1))) (num_of_Z 2)) (num_of_Z 1)), (num_of_Z 0). split_and!; [|done|done|].
      + intros H2. assert (0 < Qc_of_Z (c - 1))%Qc as Hp by (apply Qc_of_Z_pos; lia).
        eapply (increasing_ext _ (fun r => shifted (- Qc_of_Z 1) (scaled (Qc_of_Z 2) (scaled (/ Qc_of_Z (c - 1)) (shifted (- Qc_of_Z 1) r))))).
        { intros n. rewrite !sub_is_shifted. unfold num_of_Z at 1. by rewrite div_is_scaled. }
        apply (increasing_comp (shifted _)); [apply increasing_both|]. apply (increasing_comp (scaled _)); [apply increasing_both; by apply Qc_of_Z_pos|].
        apply (increasing_comp (scaled _)); [apply increasing_both; by apply Qcinv_pos|]. apply increasing_both.
      + unfold ranking_lane. fold len. fold c. cbn zeta. unfold nanrankdata. rewrite <-!list_fmap_compose. apply zip_fmap.
    - eexists (fun r => num_mul (num_sub r (num_of_Z 1)) (num_div (num_of_Z (len - 1)) (num_of_Z (c - 1)))), (num_sub (num_div (num_of_Z (len + 1)) (num_of_Z 2)) (num_of_Z 1)). split_and!; [|done|done|].
      + intros H2. assert (0 < Qc_of_Z (c - 1))%Qc as Hp by (apply Qc_of_Z_pos; lia). assert (0 < Qc_of_Z (len - 1))%Qc as Hp' by (apply Qc_of_Z_pos; lia).
        eapply (increasing_ext _ (fun r => scaled (Qc_of_Z (len - 1) * / Qc_of_Z (c - 1)) (shifted (- Qc_of_Z 1) r))).
        { intros n. rewrite !sub_is_shifted. unfold num_of_Z. by rewrite div_is_scaled. }
        apply (increasing_comp (scaled _)); [|apply increasing_both]. apply increasing_both.
        rewrite <-(Qcmult_0_l (/ Qc_of_Z (c - 1))). apply Qcmult_lt_compat_r; [by apply Qcinv_pos|done].
      + unfold ranking_lane. fold len. fold c. cbn zeta. unfold nanrankdata. rewrite <-!list_fmap_compose. apply zip_fmap. }
  eexists. split; [|exact E]. apply rising_of.
  - intros n Hn. destruct (decide (n = NaN)) as [->|Hnn]; [rewrite andb_false_r, nanrank_nan, HAn; done|].
    assert (is_nan n = false) as En by (by destruct n). rewrite En. split; [|done].
    assert (1 <= c)%Z as H1.
    { rewrite Hc. assert (n ∈ filter (fun n => is_nan n = false) ns) as Hi by (by apply elem_of_list_filter). destruct (filter (fun n => is_nan n = false) ns); [by apply elem_of_nil in Hi|simpl; lia]. }
    case_bool_decide as Hd; cbn [andb negb]; [by intros ->|]. destruct (HA ltac:(lia)) as [Hk _]. rewrite Hk. rewrite nanrank_fin by done. done.
  - intros a b Ha Hb H. pose proof (two_present a b ns Ha Hb H). rewrite bool_decide_false by lia. cbn [andb]. apply HA; [lia|]. by apply nanrank_rises.
Qed.
Lemma ranking_twice ndtri norm norm' ns : norm = NormOne \/ norm = NormN -> ranking_lane ndtri norm' (ranking_lane ndtri norm ns) = ranking_lane ndtri norm' ns.
Proof. intros H. destruct (ranking_is_rising ndtri norm ns H) as (h & Hh & ->). by apply ranking_rising. Qed.

(** * Larrys *)
Lemma tame_data y : valid y -> numeric_larry y -> no_infinite y -> Forall (holds_num tame) (data (nd_arr (lx y))).
Proof.
  intros Hv Hn Hi. apply Forall_forall. intros v Hd. destruct (in_data_cell y v Hv Hd) as (ls & _ & Hc). destruct (Hi ls v Hc) as [H1 H2].
  destruct Hv as ((_ & Ht) & _). rewrite Forall_forall in Ht. specialize (Ht v Hd). change (nd_dtype (lx y)) with (ldtype y) in Ht.
  destruct Hn as [E|E]; rewrite E in Ht; destruct v; try done; eexists; (split; [done|]); split; intros E'; (done || by subst).
Qed.
Lemma numeric_data y : valid y -> numeric_larry y -> Forall (holds_num (fun _ => True)) (data (nd_arr (lx y))).
Proof.
  intros Hv Hn. apply Forall_forall. intros v Hd. destruct Hv as ((_ & Ht) & _). rewrite Forall_forall in Ht. specialize (Ht v Hd). change (nd_dtype (lx y)) with (ldtype y) in Ht.
  destruct Hn as [E|E]; rewrite E in Ht; destruct v; try done; eexists; done.
Qed.
Lemma method_again f g h y z axis : valid y -> no_infinite y -> (forall ns, length (f ns) = length ns) -> (forall ns, Forall tame ns -> g (f ns) = h ns) ->
  (x ← on_axis f (lx y) axis; Ok (Larry x (llabel y))) = Ok z ->
  (x ← on_axis g (lx z) axis; Ok (Larry x (llabel z))) = (x ← on_axis h (lx y) axis; Ok (Larry x (llabel y))).
Proof.
  intros Hv Hi Hf Hg H. apply bind_ok in H as (x & Hx & H). injection H as <-. cbn [lx llabel].
  destruct (on_axis_inv _ _ _ _ Hv Hx) as [Hn _]. rewrite (on_axis_again tame f g h (lx y) x axis); [done|apply Hv|by apply tame_data|done..].
Qed.
Lemma rank_method_again f ndtri norm y z axis : valid y -> no_infinite y -> (forall ns, length (f ns) = length ns) ->
  (forall ns, Forall tame ns -> ranking_lane ndtri norm (f ns) = ranking_lane ndtri norm ns) ->
  (x ← on_axis f (lx y) axis; Ok (Larry x (llabel y))) = Ok z -> larry_ranking ndtri z axis norm = larry_ranking ndtri y axis norm.
Proof.
  intros Hv Hi Hf Hg H. apply bind_ok in H as (x & Hx & H). injection H as <-. unfold larry_ranking. cbn [lx llabel].
  destruct (on_axis_inv _ _ _ _ Hv Hx) as [Hn _]. rewrite (ranking_after tame f ndtri (lx y) x axis norm); [done|apply Hv|by apply tame_data|done..].
Qed.
Theorem centred_again sqrt y axis a b : valid y -> no_infinite y -> larry_demean y axis = Ok a -> larry_demedian y axis = Ok b ->
  larry_demean a axis = Ok a /\ larry_demean b axis = Ok a /\ larry_demedian a axis = Ok b /\ larry_demedian b axis = Ok b /\
  larry_zscore sqrt a axis = larry_zscore sqrt y axis /\ larry_zscore sqrt b axis = larry_zscore sqrt y axis.
Proof.
  intros Hv Hi Ha Hb. pose proof (fun op op' z H H' => method_again (centre_lane op) (centre_lane op') (centre_lane op') y z axis Hv Hi (centre_length op) (fun ns Ht => centre_again op op' ns H H' Ht)) as C.
  pose proof (fun op z H => method_again (centre_lane op) (zscore_lane sqrt) (zscore_lane sqrt) y z axis Hv Hi (centre_length op) (fun ns Ht => zscore_again op sqrt ns H Ht)) as Z.
  split_and!.
  - transitivity (larry_demean y axis); [|done]. exact (C RMean RMean a (or_introl eq_refl) (or_introl eq_refl) Ha).
  - transitivity (larry_demean y axis); [|done]. exact (C RMedian RMean b (or_intror eq_refl) (or_introl eq_refl) Hb).
  - transitivity (larry_demedian y axis); [|done]. exact (C RMean RMedian a (or_introl eq_refl) (or_intror eq_refl) Ha).
  - transitivity (larry_demedian y axis); [|done]. exact (C RMedian RMedian b (or_intror eq_refl) (or_intror eq_refl) Hb).
  - exact (Z RMean a (or_introl eq_refl) Ha).
  - exact (Z RMedian b (or_intror eq_refl) Hb).
Qed.
Theorem zscored_again sqrt y axis z : square_root sqrt -> valid y -> no_infinite y -> larry_zscore sqrt y axis = Ok z ->
  larry_zscore sqrt z axis = Ok z /\ larry_demean z axis = Ok z.
Proof.
  intros Hs Hv Hi Hz. split.
  - transitivity (larry_zscore sqrt y axis); [|done]. exact (method_again (zscore_lane sqrt) (zscore_lane sqrt) (zscore_lane sqrt) y z axis Hv Hi (zscore_length sqrt) (fun ns Ht => zscore_twice sqrt ns Hs Ht) Hz).
  - transitivity (larry_zscore sqrt y axis); [|done]. exact (method_again (zscore_lane sqrt) (centre_lane RMean) (zscore_lane sqrt) y z axis Hv Hi (zscore_length sqrt) (fun ns Ht => demean_zscore sqrt ns Hs Ht) Hz).
Qed.
Theorem ranked_centred ndtri norm y axis a b : valid y -> no_infinite y -> larry_demean y axis = Ok a -> larry_demedian y axis = Ok b ->
  larry_ranking ndtri a axis norm = larry_ranking ndtri y axis norm /\ larry_ranking ndtri b axis norm = larry_ranking ndtri y axis norm.
Proof.
  intros Hv Hi Ha Hb. split.
  - exact (rank_method_again (centre_lane RMean) ndtri norm y a axis Hv Hi (centre_length _) (fun ns Ht => rank_again RMean ndtri norm ns (or_introl eq_refl) Ht) Ha).
  - exact (rank_method_again (centre_lane RMedian) ndtri norm y b axis Hv Hi (centre_length _) (fun ns Ht => rank_again RMedian ndtri norm ns (or_intror eq_refl) Ht) Hb).
Qed.
Theorem ranked_again ndtri norm norm' y axis r : valid y -> norm = NormOne \/ norm = NormN -> larry_ranking ndtri y axis norm = Ok r ->
  larry_ranking ndtri r axis norm' = larry_ranking ndtri y axis norm'.
Proof.
  intros Hv Hnorm H. unfold larry_ranking in *. apply bind_ok in H as (x & Hx & H). injection H as <-. cbn [lx llabel].
  assert (numeric_larry y) as Hn.
  { pose proof Hx as Hx'. rewrite np_ranking_unfold in Hx'. apply bind_ok in Hx' as (ax & _ & Hx'). apply bind_ok in Hx' as (u & Hc & _). by apply check_numeric_inv in Hc. }
  rewrite (ranking_again ndtri norm norm' (lx y) x axis); [done|apply Hv|by apply numeric_data|apply ranking_lane_length|intros ns; by apply ranking_twice|done].
Qed.

(** The exact square root, NaN for numbers that are not squares. *)
Definition exact_root (v : num) : num :=
  match v with
  | Fin q =>
      let n := Qnum q in let d := Zpos (Qden q) in
      if decide (Z.sqrt n * Z.sqrt n = n /\ Z.sqrt d * Z.sqrt d = d)%Z then Fin (Qc_of_Z (Z.sqrt n) / Qc_of_Z (Z.sqrt d))%Qc else NaN
  | _ => NaN
  end.

Lemma exact_root_spec q r : exact_root (Fin q) = Fin r <-> (0 <= r /\ r * r = q)%Qc.
Proof.
  unfold exact_root. cbn zeta. set (n := Qnum q). set (d := Zpos (Qden q)). split.
  - case_decide as Hd; [|done]. destruct Hd as [Hn Hd]. assert (0 < Z.sqrt d)%Z as Hp by (apply Z.sqrt_pos; done).
    assert (0 < Qc_of_Z (Z.sqrt d))%Qc as Hp' by (by apply Qc_of_Z_pos). pose proof (pos_nonzero _ Hp') as Hne. intros E. assert (Qc_of_Z (Z.sqrt n) / Qc_of_Z (Z.sqrt d) = r)%Qc as <- by congruence. split.
    + unfold Qcdiv. rewrite <-(Qcmult_0_l (/ Qc_of_Z (Z.sqrt d))). apply Qcmult_le_compat_r; [|apply Qclt_le_weak; by apply Qcinv_pos].
      destruct (decide (Z.sqrt n = 0)%Z) as [->|Hz]; [rewrite Qc_of_Z_zero; apply Qcle_refl|]. apply Qclt_le_weak, Qc_of_Z_pos. pose proof (Z.sqrt_nonneg n). lia.
    + transitivity (Qc_of_Z n / Qc_of_Z d)%Qc.
      * transitivity (Qc_of_Z (Z.sqrt n * Z.sqrt n) / Qc_of_Z (Z.sqrt d * Z.sqrt d))%Qc; [rewrite !Qc_of_Z_mul; by field|by rewrite Hn, Hd].
      * apply Qc_is_canon. unfold Qcdiv, Qcmult, Qcinv, Qc_of_Z. cbn [this Q2Qc]. rewrite !Qred_correct. unfold n, d. destruct q as [[a b] Hq]. cbn [this Qnum Qden]. unfold Qeq, Qinv, Qmult. cbn. lia.
  - intros [H0 H]. destruct r as [[a b] Hr]. assert (Hg : Z.gcd a (Zpos b) = 1%Z) by (by apply (Qred_identity2 (a # b))).
    assert (this q = (a * a # b * b)) as Hq.
    { rewrite <-H. cbn [Qcmult this Q2Qc]. apply Qred_identity. cbn [Qmult Qnum Qden]. apply Znumtheory.Zgcd_1_rel_prime. rewrite Pos2Z.inj_mul.
      assert (Znumtheory.rel_prime a (Zpos b)) as Hrp by (by apply Znumtheory.Zgcd_1_rel_prime). apply Znumtheory.rel_prime_mult; apply Znumtheory.rel_prime_sym; apply Znumtheory.rel_prime_mult; by apply Znumtheory.rel_prime_sym. }
    assert (0 <= a)%Z as Ha. { unfold Qcle in H0. cbn [this Q2Qc] in H0. unfold Qle in H0. change (Qred 0) with 0%Q in H0. cbn [Qnum Qden] in H0. lia. }
    unfold n, d. rewrite Hq. cbn [Qnum Qden]. rewrite Pos2Z.inj_mul. rewrite !Z.sqrt_square by lia. rewrite decide_True by done. f_equal.
    apply Qc_is_canon. unfold Qcdiv, Qcmult, Qcinv, Qc_of_Z. cbn [this Q2Qc]. rewrite !Qred_correct. unfold Qeq, Qinv, Qmult. cbn. lia.
Qed.
Lemma exact_square_root : square_root exact_root.
Proof.
  split_and!; [done| |].
  - intros q. destruct (exact_root (Fin q)) as [r| | |] eqn:E; [right|by left|..].
    + exists r. apply exact_root_spec in E as [H0 <-]. split_and!; [done..|]. intros ->. ring.
    + unfold exact_root in E. cbn zeta in E. by case_decide.
    + unfold exact_root in E. cbn zeta in E. by case_decide.
  - intros c v Hc. pose proof (pos_nonzero c Hc) as Hn. assert (Qc_ltb 0 (c * c) = true) as E2.
    { apply Qc_ltb_lt. rewrite <-(Qcmult_0_l c). by apply Qcmult_lt_compat_r. }
    destruct v as [q| | |]; try done; [|unfold scaled; cbn [num_mul]; unfold inf_sign; by rewrite E2..].
    unfold scaled at 1. cbn [num_mul].
    assert (Hroot : forall q, (exists r, exact_root (Fin q) = Fin r) \/ exact_root (Fin q) = NaN).
    { intros q'. unfold exact_root. cbn zeta. case_decide; eauto. }
    destruct (Hroot q) as [[r Er]|Er].
    + rewrite Er. unfold scaled. cbn [num_mul]. apply exact_root_spec in Er as [H0 <-]. apply exact_root_spec. split; [|ring].
      rewrite <-(Qcmult_0_l c). apply Qcmult_le_compat_r; [done|by apply Qclt_le_weak].
    + rewrite Er. destruct (Hroot (q * (c * c))%Qc) as [[s Es]|Es]; [|by rewrite Es]. exfalso. apply exact_root_spec in Es as [H0 Hs].
      assert (exact_root (Fin q) = Fin (s * / c)%Qc) as Hx; [|congruence]. apply exact_root_spec. split.
      * rewrite <-(Qcmult_0_l (/ c)). apply Qcmult_le_compat_r; [done|]. apply Qclt_le_weak. by apply Qcinv_pos.
      * transitivity (s * s * (/ c * / c))%Qc; [ring|]. rewrite Hs. by field.
Qed.
