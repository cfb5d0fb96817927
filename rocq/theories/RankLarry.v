(** Proofs about ranking, lastrank, demean, demedian and zscore of larrys. *)
From Verif Require Export RankFacts.

Lemma axis_is_py y a ax : valid y -> axis_is y a ax <-> py_index (lndim y) a = Some ax.
Proof. intros Hv. rewrite py_index_Some. unfold axis_is. by rewrite valid_ndim. Qed.
Lemma lanes_related_impl (R S : list num -> list num -> Prop) y axis z :
  (forall ns ms, R ns ms -> S ns ms) -> lanes_related R y axis z -> lanes_related S y axis z.
Proof.
  intros HRS (Hv & Hd & Hl & H). split_and!; [done..|]. destruct axis as [a|].
  - destruct H as (ax & Hax & H). exists ax. split; [done|]. intros ls Hls. destruct (H ls Hls) as (vs & ns & ms & ? & ? & ? & ?).
    exists vs, ns, ms. auto.
  - destruct H as (ts & vs & ns & ms & ? & ? & ? & ? & ? & ?). exists ts, vs, ns, ms. split_and!; auto.
Qed.

Lemma larry_ranking_total ndtri y axis norm :
  valid y -> numeric_larry y -> axis_ok y axis -> norm <> NormBad ->
  exists z, larry_ranking ndtri y axis norm = Ok z /\
    lanes_related (fun ns ms => ms = ranking_lane ndtri norm ns) y axis z.
Proof.
  intros Hv Hn Hax Hnorm. unfold larry_ranking, np_ranking. rewrite check_numeric_ok by done.
  assert (exists axn, match axn, axis with Some ax, Some a => axis_is y a ax | None, None => True | _, _ => False end /\
    match axis return res (option nat) with
       | None => Ok None
       | Some a => ax ← (if decide (a < 0)%Z then of_opt IndexError (py_index (nd_ndim (lx y)) a) else of_opt ValueError (py_index (nd_ndim (lx y)) a)); Ok (Some ax)
       end = Ok axn) as (axn & Hm & Hok).
  { destruct axis as [a|]; [|by exists None]. destruct Hax as [ax Hax]. exists (Some ax). split; [done|].
    apply axis_is_py in Hax; [|done]. change (nd_ndim (lx y)) with (lndim y). rewrite Hax. by destruct (decide (a < 0)%Z). }
  rewrite Hok. cbn [mbind res_bind].
  destruct (lanewise_spec (fun ns ms => ms = ranking_lane ndtri norm ns) (ranking_lane ndtri norm) y axn axis) as (x & Hx & Hz); [|done..|].
  { intros ns _. split; [apply ranking_lane_length|done]. }
  destruct norm; try done; rewrite Hx; cbn [mbind res_bind]; eauto.
Qed.
Lemma larry_ranking_inv ndtri y axis norm z :
  valid y -> larry_ranking ndtri y axis norm = Ok z -> numeric_larry y /\ axis_ok y axis /\ norm <> NormBad.
Proof.
  intros Hv H. unfold larry_ranking, np_ranking in H. apply bind_ok in H as (x & H & _).
  apply bind_ok in H as (axn & Hax & H). apply bind_ok in H as (u & Hc & H). apply check_numeric_inv in Hc. split; [done|]. split; [|by intros ->].
  destruct axis as [a|]; [|done]. apply bind_ok in Hax as (ax & Hax & _). exists ax. apply axis_is_py; [done|].
  destruct (decide (a < 0)%Z); by apply of_opt_ok in Hax.
Qed.
Lemma larry_ranking_rel (R : list num -> list num -> Prop) ndtri y axis norm z :
  (forall ns, R ns (ranking_lane ndtri norm ns)) ->
  valid y -> larry_ranking ndtri y axis norm = Ok z -> lanes_related R y axis z.
Proof.
  intros HR Hv Hz. destruct (larry_ranking_inv _ _ _ _ _ Hv Hz) as (Hn & Hax & Hb).
  destruct (larry_ranking_total ndtri y axis norm Hv Hn Hax Hb) as (z' & Hz' & H). assert (z' = z) as -> by congruence.
  eapply lanes_related_impl; [|exact H]. intros ns ms ->. apply HR.
Qed.
Lemma larry_ranking_ok ndtri y axis norm :
  valid y -> numeric_larry y -> axis_ok y axis -> norm <> NormBad -> exists z, larry_ranking ndtri y axis norm = Ok z.
Proof. intros Hv Hn Ha Hb. destruct (larry_ranking_total ndtri y axis norm Hv Hn Ha Hb) as (z & Hz & _). eauto. Qed.
Theorem ranking_ranked ndtri y axis z :
  valid y -> larry_ranking ndtri y axis NormOne = Ok z -> lanes_related ranked y axis z.
Proof. apply larry_ranking_rel. apply ranking_one. Qed.
Theorem ranking_order ndtri y axis z :
  valid y -> larry_ranking ndtri y axis NormOne = Ok z ->
  lanes_related (fun ns ms => same_order ns ms /\ within (num_of_Z (-1)) (num_of_Z 1) ns ms) y axis z.
Proof.
  apply larry_ranking_rel. intros ns. split; [apply ranked_order, ranking_one|apply ranked_within, ranking_one].
Qed.
Theorem ranking_to_N ndtri y axis z :
  valid y -> larry_ranking ndtri y axis NormN = Ok z -> lanes_related ranked_N y axis z.
Proof. apply larry_ranking_rel. apply ranking_N. Qed.
Theorem ranking_N_order ndtri y axis z :
  valid y -> larry_ranking ndtri y axis NormN = Ok z ->
  lanes_related (fun ns ms => same_order ns ms /\ within (num_of_Z 0) (num_of_Z (Z.of_nat (length ns) - 1)) ns ms) y axis z.
Proof.
  apply larry_ranking_rel. intros ns. split; [apply ranked_N_order, (ranking_N ndtri)|apply ranked_N_within, (ranking_N ndtri)].
Qed.
Theorem ranking_to_gaussian ndtri y axis z :
  valid y -> larry_ranking ndtri y axis NormGaussian = Ok z -> lanes_related (ranked_gaussian ndtri) y axis z.
Proof. apply larry_ranking_rel. apply ranking_gaussian. Qed.
Theorem ranking_error ndtri y axis :
  valid y -> numeric_larry y ->
  (axis_ok y axis -> larry_ranking ndtri y axis NormBad = Err ValueError) /\
  (forall norm, ~ axis_ok y axis -> larry_ranking ndtri y axis norm = Err IndexError \/ larry_ranking ndtri y axis norm = Err ValueError).
Proof.
  intros Hv Hn. unfold larry_ranking, np_ranking. rewrite check_numeric_ok by done. split.
  - intros Hax. destruct axis as [a|]; [|done]. destruct Hax as [ax Hax]. apply axis_is_py in Hax; [|done].
    change (nd_ndim (lx y)) with (lndim y). rewrite Hax. by destruct (decide (a < 0)%Z).
  - intros norm Hax. destruct axis as [a|]; [|by destruct Hax]. change (nd_ndim (lx y)) with (lndim y).
    destruct (py_index (lndim y) a) as [ax|] eqn:E.
    + destruct Hax. exists ax. by apply axis_is_py.
    + destruct (decide (a < 0)%Z); [by left|by right].
Qed.

Lemma Permutation_eq {A} (l1 l2 : list A) : l1 = l2 -> l1 ≡ₚ l2.
Proof. intros ->. apply Permutation_refl. Qed.

(** ** The lane through a cell *)
Definition nums_along (y : larry) (axis : option Z) (ls : list lab) (ns : list num) : Prop :=
  exists vs, numbers vs ns /\
  match axis with
  | Some a => exists ax, axis_is y a ax /\ lane_of y ax (delete ax ls) vs
  | None => values_of y vs
  end.
Lemma lanes_related_cell R y axis z ls :
  valid y -> lanes_related R y axis z -> in_grid (llabel y) ls ->
  exists ns ms k v n m, nums_along y axis ls ns /\ R ns ms /\ ns !! k = Some n /\ ms !! k = Some m /\
    cell y ls = Some v /\ to_num v = Some n /\ cell z ls = Some (VFloat m).
Proof.
  intros Hv (_ & _ & Hlz & H) Hg. destruct axis as [a|].
  - destruct H as (ax & Hax & H).
    assert (exists l, llabel y !! ax = Some l) as [l Hl] by (apply lookup_lt_is_Some; apply Hax).
    assert (exists x, ls !! ax = Some x /\ x ∈ l) as (x & Hx & Hxl).
    { destruct (Forall2_lookup_r _ _ _ _ _ Hg Hl) as (x & Hx & Hxl). eauto. }
    destruct (H (delete ax ls)) as (vs & ns & ms & Hvs & Hns & Hms & HR).
    { unfold in_grid in *. rewrite !delete_take_drop. apply Forall2_app; [by apply Forall2_take|by apply Forall2_drop]. }
    apply elem_of_list_lookup in Hxl as [k Hk].
    assert (Hvs' := Hvs). destruct Hvs' as (l1 & Hl1 & Hvs'). assert (l1 = l) as -> by congruence.
    destruct Hms as (l2 & Hl2 & Hms). rewrite Hlz in Hl2. assert (l2 = l) as -> by congruence.
    destruct (Forall2_lookup_l _ _ _ _ _ Hvs' Hk) as (v & Hvk & Hcv).
    destruct (Forall2_lookup_l _ _ _ _ _ Hms Hk) as (w & Hwk & Hcw).
    destruct (Forall2_lookup_l _ _ _ _ _ Hns Hvk) as (n & Hnk & Hnv).
    rewrite list_lookup_fmap, fmap_Some in Hwk. destruct Hwk as (m & Hmk & ->).
    rewrite with_label_delete in Hcv, Hcw by done.
    exists ns, ms, k, v, n, m. split_and!; [|done..]. exists vs. split; [done|]. eauto.
  - destruct H as (ts & vs & ns & ms & Hnd & Hts & Hvs & Hns & Hms & HR).
    apply Hts in Hg. apply elem_of_list_lookup in Hg as [k Hk].
    destruct (Forall2_lookup_l _ _ _ _ _ Hvs Hk) as (v & Hvk & Hcv).
    destruct (Forall2_lookup_l _ _ _ _ _ Hms Hk) as (m & Hmk & Hcm).
    destruct (Forall2_lookup_l _ _ _ _ _ Hns Hvk) as (n & Hnk & Hnv).
    exists ns, ms, k, v, n, m. split_and!; [|done..]. exists vs. split; [done|]. exists ts. done.
Qed.
Lemma nums_along_perm (h : num -> num) y1 y2 axis ls ns1 ns2 :
  llabel y2 = llabel y1 ->
  (forall ls, in_grid (llabel y1) ls -> exists v1 v2 n, cell y1 ls = Some v1 /\ cell y2 ls = Some v2 /\
    to_num v1 = Some n /\ to_num v2 = Some (h n)) ->
  in_grid (llabel y1) ls -> nums_along y1 axis ls ns1 -> nums_along y2 axis ls ns2 -> ns2 ≡ₚ h <$> ns1.
Proof.
  intros Hl Hc Hg (vs1 & Hn1 & H1) (vs2 & Hn2 & H2).
  set (g1 := fun ls => match cell y1 ls with Some v => default NaN (to_num v) | None => NaN end).
  set (g2 := fun ls => match cell y2 ls with Some v => default NaN (to_num v) | None => NaN end).
  assert (Hg12 : forall ls, in_grid (llabel y1) ls -> g2 ls = h (g1 ls)).
  { intros ls' Hls'. unfold g1, g2. destruct (Hc ls' Hls') as (v1 & v2 & n & -> & -> & E1 & E2). by rewrite E1, E2. }
  destruct axis as [a|].
  - destruct H1 as (ax & Hax & l & Hla & H1), H2 as (ax2 & Hax2 & l2 & Hl2 & H2).
    assert (ax2 = ax) as ->. { unfold axis_is in *. rewrite Hl in Hax2. lia. }
    rewrite Hl in Hl2. assert (l2 = l) as -> by congruence.
    assert (E1 : forall (y : larry) (f : lab -> list lab) xs vs ns, Forall2 (fun x v => cell y (f x) = Some v) xs vs -> numbers vs ns ->
      ns = (fun x => match cell y (f x) with Some v => default NaN (to_num v) | None => NaN end) <$> xs).
    { intros y f xs vs ns Hv. revert ns. induction Hv as [|x v xs vs Hx Hv IH]; intros ns Hns; inversion Hns; subst; [done|].
      rewrite fmap_cons, Hx. f_equal; [|by apply IH]. match goal with Hq : to_num v = Some _ |- _ => by rewrite Hq end. }
    rewrite (E1 _ _ _ _ _ H1 Hn1), (E1 _ _ _ _ _ H2 Hn2). rewrite <-list_fmap_compose. apply Permutation_eq.
    apply list_fmap_ext. intros i x Hi. apply (Hg12 (with_label ax x (delete ax ls))).
    eapply with_label_grid; [done|by eapply elem_of_list_lookup_2|].
    unfold in_grid in *. rewrite !delete_take_drop. apply Forall2_app; [by apply Forall2_take|by apply Forall2_drop].
  - destruct H1 as (ts1 & Hd1 & Ht1 & H1), H2 as (ts2 & Hd2 & Ht2 & H2).
    assert (E1 : forall (y : larry) xs vs ns, Forall2 (fun x v => cell y x = Some v) xs vs -> numbers vs ns ->
      ns = (fun x => match cell y x with Some v => default NaN (to_num v) | None => NaN end) <$> xs).
    { intros y xs vs ns Hv. revert ns. induction Hv as [|x v xs vs Hx Hv IH]; intros ns Hns; inversion Hns; subst; [done|].
      rewrite fmap_cons, Hx. f_equal; [|by apply IH]. match goal with Hq : to_num v = Some _ |- _ => by rewrite Hq end. }
    rewrite (E1 _ _ _ _ H1 Hn1), (E1 _ _ _ _ H2 Hn2). fold g1 g2.
    assert (ts2 ≡ₚ ts1) as Hp.
    { apply NoDup_Permutation; [done..|]. intros x. rewrite Ht1, Ht2. by rewrite Hl. }
    rewrite Hp. rewrite <-list_fmap_compose. apply Permutation_eq. apply list_fmap_ext. intros i x Hi.
    apply Hg12, Ht1. by eapply elem_of_list_lookup_2.
Qed.
Theorem ranking_negated ndtri y1 y2 axis z1 z2 :
  valid y1 -> valid y2 -> negated y1 y2 -> larry_ranking ndtri y1 axis NormOne = Ok z1 ->
  larry_ranking ndtri y2 axis NormOne = Ok z2 -> negated z1 z2.
Proof.
  intros Hv1 Hv2 [Hl Hc] Hz1 Hz2. apply ranking_ranked in Hz1, Hz2; [|done..].
  assert (Hl1 : llabel z1 = llabel y1) by apply Hz1. assert (Hl2 : llabel z2 = llabel y2) by apply Hz2.
  split; [congruence|]. intros ls Hg. rewrite Hl1 in Hg.
  destruct (lanes_related_cell _ _ _ _ _ Hv1 Hz1 Hg) as (ns1 & ms1 & k1 & v1 & n1 & m1 & Ha1 & Hr1 & Hn1 & Hm1 & Hc1 & Ht1 & Hcz1).
  destruct (lanes_related_cell _ _ _ _ ls Hv2 Hz2 ltac:(by rewrite Hl)) as (ns2 & ms2 & k2 & v2 & n2 & m2 & Ha2 & Hr2 & Hn2 & Hm2 & Hc2 & Ht2 & Hcz2).
  assert (n2 = num_neg n1) as ->.
  { destruct (Hc ls Hg) as (u1 & u2 & n & E1 & E2 & E3 & E4). congruence. }
  exists (VFloat m1), (VFloat m2), m1. split_and!; [done..|]. cbn [to_num]. f_equal.
  eapply ranked_neg; [exact Hr1|exact Hr2| |exact Hn1|exact Hn2|done|done].
  eapply (nums_along_perm num_neg y1 y2); [done|exact Hc|exact Hg|done|done].
Qed.

(** ** lastrank *)
Lemma lastrank_lane_spec ns : ns <> [] -> last_ranked ns (lastrank_lane ns).
Proof.
  intros Hne. unfold lastrank_lane, last_ranked. destruct (last ns) as [n|] eqn:El; [|by apply last_None in El].
  exists n. split; [done|]. cbv zeta. set (c := length (filter (fun m => is_finite m = true) ns)).
  destruct (is_finite n) eqn:Hf; [|done].
  assert (Hnn : n <> NaN) by (by intros ->).
  rewrite (filter_length_ext (fun m => num_ltb m n = true) (fun m => num_lt m n)) by (intros; apply num_ltb_lt).
  rewrite (filter_length_ext (fun m => num_eqb n m = true) (fun m => m = n)).
  2:{ intros m _. rewrite num_eqb_same. unfold num_same. naive_solver. }
  fold (count_lt n ns) (count_eq n ns).
  assert (Hin : n ∈ ns) by (apply last_Some_elem_of in El; done).
  assert (Hc : 1 <= c).
  { unfold c. assert (n ∈ filter (fun m => is_finite m = true) ns) as Hp by (by apply elem_of_list_filter).
    destruct (filter _ ns); [by apply elem_of_nil in Hp|simpl; lia]. }
  pose proof (count_eq_pos n ns Hin) as He.
  assert (Hec : count_eq n ns <= c).
  { unfold count_eq, c. clear -Hf. induction ns as [|m ns IH]; [done|]. rewrite !filter_cons.
    destruct (decide (m = n)) as [->|]; [rewrite decide_True by done; simpl; lia|]. destruct (decide _); simpl; lia. }
  unfold num_of_nat, num_of_Z, num_sub. cbn [num_add num_neg num_div]. rewrite !(decide_False (P := Qc_of_Z 2 = 0%Qc)) by done.
  cbn [num_div]. split.
  - intros Hc1. rewrite decide_True by (rewrite Hc1; by apply Qc_is_canon).
    assert (He1 : count_eq n ns = 1) by lia. rewrite He1.
    set (p := (_ / _)%Qc).
    assert (Hp : p = Qc_of_Z (Z.of_nat (count_lt n ns))).
    { unfold p. replace (Qc_of_Z (Z.of_nat 1)) with 1%Qc by (by apply Qc_is_canon).
      replace (Qc_of_Z 1) with 1%Qc by (by apply Qc_is_canon). replace (Qc_of_Z 2) with (1 + 1)%Qc by (by apply Qc_is_canon).
      field. done. }
    rewrite Hp. unfold inf_sign. case_decide as H0.
    + rewrite H0. done.
    + assert (Qc_ltb 0 (Qc_of_Z (Z.of_nat (count_lt n ns))) = true) as ->.
      { apply Qc_ltb_lt. apply Qc_of_Z_pos. lia. }
      done.
  - intros Hc1. assert (Hd : (Qc_of_Z (Z.of_nat c) + - Qc_of_Z 1)%Qc = Qc_of_Z (Z.of_nat c - 1)).
    { replace (Z.of_nat c - 1)%Z with (Z.of_nat c + - (1))%Z by lia. by rewrite Z2Qc_inj_add, Z2Qc_inj_opp. }
    rewrite Hd. assert (H0 : Qc_of_Z (Z.of_nat c - 1) <> 0%Qc) by (apply Qc_of_Z_neq0; lia).
    rewrite decide_False by done. cbn [num_add num_mul num_neg]. eexists. split; [done|]. revert H0.
    generalize (Qc_of_Z (Z.of_nat c - 1)). intros d H0.
    replace (2 * Z.of_nat (count_lt n ns) + Z.of_nat (count_eq n ns) - 1)%Z
      with (2 * Z.of_nat (count_lt n ns) + Z.of_nat (count_eq n ns) + -1)%Z by lia.
    rewrite !Z2Qc_inj_add, Z2Qc_inj_mul.
    replace (Qc_of_Z (-1)) with (-(1))%Qc by (by apply Qc_is_canon).
    replace (Qc_of_Z 1) with 1%Qc by (by apply Qc_is_canon). replace (Qc_of_Z 2) with (1 + 1)%Qc by (by apply Qc_is_canon).
    field. done.
Qed.
Lemma last_ranked_ranked ns ms m :
  no_infinity ns -> (last ns = Some NaN \/ 2 <= length (present ns)) -> last_ranked ns m -> ranked ns ms -> last ms = Some m.
Proof.
  intros Hinf Hcase (n & Hlast & H) Hr.
  assert (Hlen : length ms = length ns) by apply Hr.
  rewrite last_lookup in *. rewrite Hlen. destruct (ms !! Nat.pred (length ns)) as [m'|] eqn:Em.
  2:{ apply lookup_ge_None in Em. apply lookup_lt_Some in Hlast. lia. }
  f_equal. assert (Hcf : length (filter (fun n => is_finite n = true) ns) = length (present ns)).
  { apply filter_length_ext. intros x Hx. specialize (Hinf x Hx). by destruct x. }
  cbv zeta in H. rewrite Hcf in H. destruct (is_finite n) eqn:Hf.
  - assert (Hnn : n <> NaN) by (by intros ->). destruct Hcase as [Hcase|Hcase]; [congruence|].
    destruct H as [_ H]. destruct (H ltac:(lia)) as (q & -> & E).
    destruct (ranked_many _ _ _ _ _ Hr ltac:(lia) Hlast Hnn Em) as (q' & -> & E' & Hd & _).
    f_equal. by eapply scaled_eq.
  - subst m. assert (n = NaN) as ->.
    { specialize (Hinf n (elem_of_list_lookup_2 _ _ _ Hlast)). by destruct n. }
    by eapply ranked_nan.
Qed.
Lemma larry_lastrank_total y a ax :
  valid y -> numeric_larry y -> nonempty y -> axis_is y a ax ->
  exists o, larry_lastrank y a = Ok o /\
    reduction_by (fun vs v => exists ns m, numbers vs ns /\ v = VFloat m /\ last_ranked ns m) y (Some a) o.
Proof.
  intros Hv Hn Hne Hax. unfold larry_lastrank.
  assert (Hlt : ax < lndim y) by (rewrite <-valid_ndim by done; apply Hax).
  rewrite (proj1 (axis_is_py y a ax Hv) Hax). cbn [of_opt mbind res_bind]. rewrite decide_False by (by apply size_nonempty).
  rewrite check_numeric_ok by done. cbn [mbind res_bind].
  assert (HR : forall ls vs, lane_of y ax ls vs -> vs <> [] -> exists ns m, numbers vs ns /\ last_val vs = VFloat m /\ last_ranked ns m).
  { intros ls vs Hl Hne'. pose proof (omap_num_length y vs Hn (lane_of_typed _ _ _ _ Hv Hl)) as Hns.
    eexists _, _. split_and!; [exact Hns|done|]. apply lastrank_lane_spec. intros E. rewrite E in Hns. by inversion Hns. }
  destruct (reduce_out y ax DFloat last_val Hv Hlt Hne) as (b & Hb & Hcases); [done|].
  rewrite Hb. cbn [of_opt mbind res_bind].
  destruct Hcases as [(H1 & vs & Hvs & Hne' & Ho)|(H1 & z & -> & Ho & Hvz & Hc)]; rewrite Ho; eexists; (split; [done|]); exists ax; (split; [done|]).
  - split; [|lia]. intros _. exists vs, (last_val vs). split_and!; [done..|]. eauto.
  - split; [lia|]. intros _. eexists. split_and!; [done..|]. intros ls Hls. destruct (Hc ls Hls) as (vs & Hne' & Hvs & Hcell).
    exists vs, (last_val vs). split_and!; [done..|]. eauto.
Qed.
Lemma reduction_by_impl (R S : list val -> val -> Prop) y axis o :
  (forall vs v, R vs v -> S vs v) -> reduction_by R y axis o -> reduction_by S y axis o.
Proof.
  intros HRS. unfold reduction_by. destruct axis as [a|].
  - intros (ax & Hax & H1 & H2). exists ax. split_and!; [done| |].
    + intros H. destruct (H1 H) as (vs & v & ? & ? & ?). exists vs, v. auto.
    + intros H. destruct (H2 H) as (z & ? & ? & ? & Hc). exists z. split_and!; [done..|]. intros ls Hls.
      destruct (Hc ls Hls) as (vs & v & ? & ? & ?). exists vs, v. auto.
  - intros (vs & v & ? & ? & ?). exists vs, v. auto.
Qed.
Theorem lastrank_last y a ax :
  valid y -> numeric_larry y -> nonempty y -> axis_is y a ax ->
  exists o, larry_lastrank y a = Ok o /\
    reduction_by (fun vs v => exists ns m, numbers vs ns /\ v = VFloat m /\
      (no_infinity ns -> last ns = Some NaN \/ 2 <= length (present ns) -> forall ms, ranked ns ms -> last ms = Some m)) y (Some a) o.
Proof.
  intros Hv Hn Hne Hax. destruct (larry_lastrank_total y a ax Hv Hn Hne Hax) as (o & Ho & Hr). exists o. split; [done|].
  eapply reduction_by_impl; [|exact Hr]. intros vs v (ns & m & ? & -> & Hl). exists ns, m. split_and!; [done..|].
  intros Hi Hc ms Hms. by eapply last_ranked_ranked.
Qed.
Theorem lastrank_error y a :
  valid y ->
  ((forall ax, ~ axis_is y a ax) -> larry_lastrank y a = Err IndexError) /\
  (ldtype y = DStr -> lsize y <> 0 -> forall ax, axis_is y a ax -> larry_lastrank y a = Err TypeError).
Proof.
  intros Hv. unfold larry_lastrank. split.
  - intros Hax. destruct (py_index (lndim y) a) as [ax|] eqn:E; [|done]. destruct (Hax ax). by apply axis_is_py.
  - intros Hn Hs ax Hax. rewrite (proj1 (axis_is_py y a ax Hv) Hax). cbn [of_opt mbind res_bind]. rewrite decide_False by done.
    unfold check_numeric. change (nd_dtype (lx y)) with (ldtype y). by rewrite Hn.
Qed.

(** ** demean, demedian and zscore *)
Lemma on_axis_spec (R : list num -> list num -> Prop) f y axis :
  (forall ns, length (f ns) = length ns /\ R ns (f ns)) -> valid y -> numeric_larry y -> axis_ok y axis ->
  exists x, on_axis f (lx y) axis = Ok x /\ lanes_related R y axis (Larry x (llabel y)).
Proof.
  intros HR Hv Hn Hax. unfold on_axis. destruct axis as [a|].
  - destruct Hax as [ax Hax]. unfold norm_axis. change (nd_ndim (lx y)) with (lndim y).
    rewrite (proj1 (axis_is_py y a ax Hv) Hax). cbn [of_opt mbind res_bind].
    apply lanewise_spec; auto.
  - apply lanewise_spec; auto.
Qed.
Lemma on_axis_inv f y axis x : valid y -> on_axis f (lx y) axis = Ok x -> numeric_larry y /\ axis_ok y axis.
Proof.
  intros Hv H. unfold on_axis in H. destruct axis as [a|].
  - apply bind_ok in H as (ax & Hax & H). unfold lanewise in H. apply bind_ok in H as (u & Hc & _).
    apply check_numeric_inv in Hc. split; [done|]. apply of_opt_ok in Hax. exists ax. by apply axis_is_py.
  - unfold lanewise in H. apply bind_ok in H as (u & Hc & _). apply check_numeric_inv in Hc. done.
Qed.
Lemma on_axis_error f y a : valid y -> (forall ax, ~ axis_is y a ax) -> on_axis f (lx y) (Some a) = Err ValueError.
Proof.
  intros Hv Hax. unfold on_axis, norm_axis. change (nd_ndim (lx y)) with (lndim y).
  destruct (py_index (lndim y) a) as [ax|] eqn:E; [|done]. destruct (Hax ax). by apply axis_is_py.
Qed.

Lemma present_self ns : Forall (fun n => n <> NaN) (present ns).
Proof. apply Forall_forall. intros n Hn. by apply elem_of_list_filter in Hn as [? _]. Qed.
Lemma centre_mean ns : demeaned ns (centre_lane RMean ns).
Proof.
  unfold demeaned, centred, centre_lane. fold (present ns). eexists. split; [|done].
  case_decide as H; [by rewrite H|]. exact (float_red_spec RMean (present ns) ltac:(done) ltac:(done) ltac:(done) H (present_self ns)).
Qed.
Lemma centre_median ns : demedianed ns (centre_lane RMedian ns).
Proof.
  unfold demedianed, centred, centre_lane. fold (present ns). eexists. split; [|done].
  case_decide as H; [by rewrite H|]. exact (float_red_spec RMedian (present ns) ltac:(done) ltac:(done) ltac:(done) H (present_self ns)).
Qed.
Lemma zscore_spec sqrt ns : zscored sqrt ns (zscore_lane sqrt ns).
Proof.
  unfold zscored, zscore_lane. eexists _, _. split; [apply centre_mean|]. split; [|done].
  fold (present (centre_lane RMean ns)). set (l := present _). case_decide as H; [by rewrite H|].
  exists (num_var 0 l). split; [apply var_spec|]. by destruct l.
Qed.

(** Sums of finite numbers. *)
Lemma finite_fin l : Forall (fun n => is_finite n = true) l -> exists qs, l = Fin <$> qs.
Proof. induction 1 as [|n l Hn H [qs ->]]; [by exists []|]. destruct n as [q| | |]; try done. by exists (q :: qs). Qed.
Definition Qc_sum (qs : list Qc) : Qc := foldr Qcplus (Qc_of_Z 0) qs.
Lemma total_fin qs : num_total (Fin <$> qs) = Fin (Qc_sum qs).
Proof. induction qs as [|q qs IH]; [done|]. rewrite fmap_cons. unfold num_total in *. cbn [foldr]. by rewrite IH. Qed.
Lemma Qc_sum_sub qs m : Qc_sum ((fun q => (q + - m)%Qc) <$> qs) = (Qc_sum qs - Qc_of_Z (Z.of_nat (length qs)) * m)%Qc.
Proof.
  induction qs as [|q qs IH]; [unfold Qc_sum; cbn [fmap list_fmap foldr length]; change (Z.of_nat 0) with 0%Z; rewrite Qc_of_Z_0; ring|].
  rewrite fmap_cons. unfold Qc_sum in *. cbn [foldr length]. rewrite IH. rewrite Nat2Z.inj_succ. unfold Z.succ.
  rewrite Z2Qc_inj_add. replace (Qc_of_Z 1) with 1%Qc by (by apply Qc_is_canon). ring.
Qed.
Lemma mean_fin qs : qs <> [] -> mean_of (Fin <$> qs) = Fin (Qc_sum qs / Qc_of_Z (Z.of_nat (length qs)))%Qc.
Proof.
  intros H. unfold mean_of. rewrite total_fin, fmap_length. unfold num_of_nat, num_of_Z. cbn [num_div].
  rewrite decide_False; [done|]. apply Qc_of_Z_neq0. destruct qs; [done|simpl; lia].
Qed.
Lemma present_sub ns mu : is_finite mu = true -> present ((fun n => num_sub n mu) <$> ns) = (fun n => num_sub n mu) <$> present ns.
Proof.
  intros Hm. unfold present. induction ns as [|n ns IH]; [done|]. rewrite fmap_cons, !filter_cons.
  destruct (decide (n <> NaN)) as [Hn|Hn].
  - rewrite decide_True by (by destruct n, mu). by rewrite fmap_cons, IH.
  - rewrite decide_False by (destruct n, mu; naive_solver). done.
Qed.
Lemma no_infinity_present ns : no_infinity ns -> Forall (fun n => is_finite n = true) (present ns).
Proof.
  intros H. apply Forall_forall. intros n Hn. apply elem_of_list_filter in Hn as [Hn Hin]. specialize (H n Hin). by destruct n.
Qed.
Lemma demeaned_zero ns ms :
  demeaned ns ms -> no_infinity ns -> present ns <> [] ->
  mean_of (present ms) = num_of_Z 0 /\ forall k, ms !! k = Some NaN <-> ns !! k = Some NaN.
Proof.
  intros (mu & Hmu & ->) Hi Hp. rewrite decide_False in Hmu by done.
  destruct (finite_fin _ (no_infinity_present _ Hi)) as [qs Hqs].
  assert (Hqn : qs <> []) by (intros ->; by rewrite Hqs in Hp).
  rewrite Hqs, mean_fin in Hmu by done. set (m := (Qc_sum qs / _)%Qc) in Hmu. subst mu.
  split.
  - rewrite present_sub by done. rewrite Hqs. rewrite <-list_fmap_compose.
    change ((fun n => num_sub n (Fin m)) ∘ Fin) with (fun q => Fin (q + - m)%Qc).
    rewrite (list_fmap_compose (fun q => (q + - m)%Qc) Fin). rewrite mean_fin by (by destruct qs).
    rewrite fmap_length, Qc_sum_sub. unfold num_of_Z. f_equal. rewrite Qc_of_Z_0. unfold m. field.
    apply Qc_of_Z_neq0. destruct qs; [done|simpl; lia].
  - intros k. rewrite list_lookup_fmap, fmap_Some. split; [|intros ->; by eexists]. intros (n & -> & E). by destruct n.
Qed.
Lemma num_le_sub a b mu : is_finite mu = true -> num_le a b -> num_le (num_sub a mu) (num_sub b mu).
Proof.
  intros Hm H. destruct (num_le_nan _ _ H) as [Ha Hb]. destruct mu as [m| | |]; try done.
  destruct H as [H|[-> _]]; [|right; by destruct b]. left. destruct a as [p| | |], b as [q| | |]; try done. simpl in *.
  rewrite !(Qcplus_comm _ (- m)). by apply Qcplus_lt_mono_l.
Qed.
Lemma StronglySorted_fmap {A B} (R : relation A) (S : relation B) (f : A -> B) (l : list A) :
  (forall x y, R x y -> S (f x) (f y)) -> StronglySorted R l -> StronglySorted S (f <$> l).
Proof.
  intros HRS. induction 1 as [|x l Hs IH Hx]; [constructor|]. rewrite fmap_cons. constructor; [done|].
  apply Forall_fmap. eapply Forall_impl; [exact Hx|]. intros y. apply HRS.
Qed.
Lemma demedianed_zero ns ms :
  demedianed ns ms -> no_infinity ns -> present ns <> [] ->
  median_of (present ms) (num_of_Z 0) /\ forall k, ms !! k = Some NaN <-> ns !! k = Some NaN.
Proof.
  intros (mu & Hmu & ->) Hi Hp. rewrite decide_False in Hmu by done.
  pose proof (no_infinity_present _ Hi) as Hfin. destruct Hmu as (s & Hs & Hsort & Hmid).
  assert (Hsf : Forall (fun n => is_finite n = true) s) by (by rewrite Hs).
  assert (Hlk : forall k n, s !! k = Some n -> is_finite n = true) by (rewrite Forall_lookup in Hsf; eauto).
  assert (Hmuf : is_finite mu = true).
  { case_decide; [by eapply Hlk|]. destruct Hmid as (a & b & Ha%Hlk & Hb%Hlk & ->). by destruct a, b. }
  split.
  - rewrite present_sub by done. exists ((fun n => num_sub n mu) <$> s). rewrite fmap_length. split_and!.
    + by rewrite Hs.
    + eapply StronglySorted_fmap; [|exact Hsort]. intros x y. by apply num_le_sub.
    + destruct mu as [m| | |]; try done. case_decide.
      * rewrite list_lookup_fmap, Hmid. cbn [fmap option_fmap option_map]. unfold num_sub, num_of_Z. cbn [num_neg num_add]. do 2 f_equal. rewrite Qc_of_Z_0. ring.
      * destruct Hmid as (a & b & Ha & Hb & Hm). pose proof (Hlk _ _ Ha) as Hfa. pose proof (Hlk _ _ Hb) as Hfb.
        destruct a as [p| | |], b as [q| | |]; try done.
        exists (num_sub (Fin p) (Fin m)), (num_sub (Fin q) (Fin m)).
        rewrite !list_lookup_fmap, Ha, Hb. split_and!; [done..|].
        unfold num_of_Z, num_sub in *. cbn [num_add num_neg num_div] in *. rewrite decide_False in * by done.
        injection Hm as ->. f_equal. rewrite Qc_of_Z_0. replace (Qc_of_Z 2) with (1 + 1)%Qc by (by apply Qc_is_canon). field. done.
  - intros k. destruct mu as [m| | |]; try done. rewrite list_lookup_fmap, fmap_Some. split; [|intros ->; by eexists]. intros (n & -> & E). by destruct n.
Qed.

Lemma centre_length op ns : length (centre_lane op ns) = length ns.
Proof. apply fmap_length. Qed.
Lemma zscore_length sqrt ns : length (zscore_lane sqrt ns) = length ns.
Proof. unfold zscore_lane. by rewrite fmap_length, centre_length. Qed.

Theorem demean_total y axis :
  valid y -> numeric_larry y -> axis_ok y axis -> exists z, larry_demean y axis = Ok z /\ lanes_related demeaned y axis z.
Proof.
  intros Hv Hn Hax. unfold larry_demean.
  destruct (on_axis_spec demeaned (centre_lane RMean) y axis) as (x & -> & Hz); [|done..|].
  { intros ns. split; [apply centre_length|apply centre_mean]. }
  eexists. split; [done|done].
Qed.
Theorem demedian_total y axis :
  valid y -> numeric_larry y -> axis_ok y axis -> exists z, larry_demedian y axis = Ok z /\ lanes_related demedianed y axis z.
Proof.
  intros Hv Hn Hax. unfold larry_demedian.
  destruct (on_axis_spec demedianed (centre_lane RMedian) y axis) as (x & -> & Hz); [|done..|].
  { intros ns. split; [apply centre_length|apply centre_median]. }
  eexists. split; [done|done].
Qed.
Theorem zscore_total sqrt y axis :
  valid y -> numeric_larry y -> axis_ok y axis -> exists z, larry_zscore sqrt y axis = Ok z /\ lanes_related (zscored sqrt) y axis z.
Proof.
  intros Hv Hn Hax. unfold larry_zscore.
  destruct (on_axis_spec (zscored sqrt) (zscore_lane sqrt) y axis) as (x & -> & Hz); [|done..|].
  { intros ns. split; [apply zscore_length|apply zscore_spec]. }
  eexists. split; [done|done].
Qed.
Theorem demean_zero y axis z :
  valid y -> larry_demean y axis = Ok z ->
  lanes_related (fun ns ms => no_infinity ns -> present ns <> [] ->
    mean_of (present ms) = num_of_Z 0 /\ forall k, ms !! k = Some NaN <-> ns !! k = Some NaN) y axis z.
Proof.
  intros Hv Hz. assert (Hz' := Hz). unfold larry_demean in Hz'. apply bind_ok in Hz' as (x & Hx & _).
  destruct (on_axis_inv _ _ _ _ Hv Hx) as [Hn Hax]. destruct (demean_total y axis Hv Hn Hax) as (z' & Hz' & H).
  assert (z' = z) as -> by congruence. eapply lanes_related_impl; [|exact H]. intros ns ms. by apply demeaned_zero.
Qed.
Theorem demedian_zero y axis z :
  valid y -> larry_demedian y axis = Ok z ->
  lanes_related (fun ns ms => no_infinity ns -> present ns <> [] ->
    median_of (present ms) (num_of_Z 0) /\ forall k, ms !! k = Some NaN <-> ns !! k = Some NaN) y axis z.
Proof.
  intros Hv Hz. assert (Hz' := Hz). unfold larry_demedian in Hz'. apply bind_ok in Hz' as (x & Hx & _).
  destruct (on_axis_inv _ _ _ _ Hv Hx) as [Hn Hax]. destruct (demedian_total y axis Hv Hn Hax) as (z' & Hz' & H).
  assert (z' = z) as -> by congruence. eapply lanes_related_impl; [|exact H]. intros ns ms. by apply demedianed_zero.
Qed.
Theorem demean_error y a : valid y -> (forall ax, ~ axis_is y a ax) ->
  larry_demean y (Some a) = Err ValueError /\ larry_demedian y (Some a) = Err ValueError /\
  forall sqrt, larry_zscore sqrt y (Some a) = Err ValueError.
Proof.
  intros Hv Hax. unfold larry_demean, larry_demedian, larry_zscore. split_and!; [| |intros sqrt]; by rewrite on_axis_error.
Qed.

(** lastrank is the last element of ranking. *)
Theorem lastrank_ranking ndtri y a ax :
  valid y -> numeric_larry y -> nonempty y -> axis_is y a ax ->
  (forall ls vs ns, lane_of y ax ls vs -> numbers vs ns -> no_infinity ns /\ (last ns = Some NaN \/ 2 <= length (present ns))) ->
  exists z o, larry_ranking ndtri y (Some a) NormOne = Ok z /\ larry_lastrank y a = Ok o /\
    reduction_by (fun vs v => last vs = Some v) z (Some a) o.
Proof.
  intros Hv Hn Hne Hax Hcond.
  destruct (larry_ranking_ok ndtri y (Some a) NormOne Hv Hn) as [z Hz]; [by exists ax|done|].
  destruct (larry_lastrank_total y a ax Hv Hn Hne Hax) as (o & Ho & Hr). exists z, o. split_and!; [done..|].
  apply ranking_ranked in Hz as (Hvz & Hd & Hl & ax1 & Hax1 & Hz); [|done].
  destruct Hr as (ax2 & Hax2 & Hr1 & Hr2).
  assert (ax1 = ax) as -> by (unfold axis_is in *; lia). assert (ax2 = ax) as -> by (unfold axis_is in *; lia).
  assert (Hkey : forall ls vs v, in_grid (delete ax (llabel y)) ls -> lane_of y ax ls vs ->
    (exists ns m, numbers vs ns /\ v = VFloat m /\ last_ranked ns m) -> exists ws, lane_of z ax ls ws /\ last ws = Some v).
  { intros ls vs v Hg Hvs (ns & m & Hns & -> & Hlr). destruct (Hz ls Hg) as (vs' & ns' & ms & Hvs' & Hns' & Hms & Hrk).
    rewrite (lane_of_unique _ _ _ _ _ Hvs' Hvs) in *. rewrite (numbers_fun _ _ _ Hns' Hns) in *.
    destruct (Hcond ls vs ns Hvs Hns) as [Hi Hc]. exists (VFloat <$> ms). split; [done|].
    rewrite fmap_last. by rewrite (last_ranked_ranked ns ms m Hi Hc Hlr Hrk). }
  exists ax. split; [by unfold axis_is in *; rewrite Hl|]. rewrite Hl. split.
  - intros H1. destruct (Hr1 H1) as (vs & v & Hov & Hvs & HR).
    destruct (Hkey [] vs v) as (ws & Hws & Hlast); [|done|done|].
    { destruct (llabel y) as [|l [|]] eqn:E; try done. assert (ax = 0) as -> by (unfold axis_is in Hax; rewrite E in Hax; simpl in Hax; lia). constructor. }
    eauto 6.
  - intros H1. destruct (Hr2 H1) as (z' & Hoz & Hvz' & Hlz' & Hc). exists z'. split_and!; [done..|].
    intros ls Hg. destruct (Hc ls Hg) as (vs & v & Hvs & Hcell & HR). rewrite Hlz' in Hg.
    destruct (Hkey ls vs v Hg Hvs HR) as (ws & Hws & Hlast). eauto 6.
Qed.

(** ** zscore has unit variance *)
Lemma num_var_fin qs : qs <> [] ->
  num_div (num_total ((fun n => num_mul (num_sub n (mean_of (Fin <$> qs))) (num_sub n (mean_of (Fin <$> qs)))) <$> (Fin <$> qs)))
     (num_of_Z (Z.of_nat (length (Fin <$> qs)) - 0)) =
  Fin (Qc_sum ((fun q => let d := (q + - (Qc_sum qs / Qc_of_Z (Z.of_nat (length qs))))%Qc in (d * d)%Qc) <$> qs) / Qc_of_Z (Z.of_nat (length qs)))%Qc.
Proof.
  intros Hne. rewrite mean_fin by done. set (m := (_ / _)%Qc). rewrite <-list_fmap_compose.
  change ((fun n => num_mul (num_sub n (Fin m)) (num_sub n (Fin m))) ∘ Fin) with (fun q => Fin ((q + - m) * (q + - m))%Qc).
  rewrite (list_fmap_compose (fun q => ((q + - m) * (q + - m))%Qc) Fin). rewrite total_fin, fmap_length.
  unfold num_of_Z. cbn [num_div]. rewrite decide_False; [|apply Qc_of_Z_neq0; destruct qs; [done|simpl; lia]].
  do 3 f_equal. lia.
Qed.
Lemma Qc_sum_scale qs c : Qc_sum ((fun q => (q * c)%Qc) <$> qs) = (Qc_sum qs * c)%Qc.
Proof.
  induction qs as [|q qs IH]; [unfold Qc_sum; cbn [fmap list_fmap foldr]; rewrite Qc_of_Z_0; ring|].
  rewrite fmap_cons. unfold Qc_sum in *. cbn [foldr]. rewrite IH. ring.
Qed.
Lemma zscored_unit sqrt ns ms v s :
  zscored sqrt ns ms -> no_infinity ns -> present ns <> [] ->
  reduced (RVar 0) (present ns) (Fin v) -> v <> 0%Qc -> sqrt (Fin v) = Fin s -> (s * s)%Qc = v ->
  reduced RMean (present ms) (num_of_Z 0) /\ reduced (RVar 0) (present ms) (num_of_Z 1).
Proof.
  intros (ds & sd & (mu & Hmu & ->) & Hsd & ->) Hi Hp Hvar Hv0 Hsq Hss. rewrite decide_False in Hmu by done.
  destruct (finite_fin _ (no_infinity_present _ Hi)) as [qs Hqs].
  assert (Hqn : qs <> []) by (intros ->; by rewrite Hqs in Hp).
  assert (Hlen0 : Qc_of_Z (Z.of_nat (length qs)) <> 0%Qc) by (apply Qc_of_Z_neq0; destruct qs; [done|simpl; lia]).
  rewrite Hqs, mean_fin in Hmu by done. set (m := (Qc_sum qs / _)%Qc) in Hmu. subst mu.
  rewrite present_sub in Hsd by done. rewrite Hqs in Hsd. rewrite <-list_fmap_compose in Hsd.
  change ((fun n => num_sub n (Fin m)) ∘ Fin) with (fun q => Fin (q + - m)%Qc) in Hsd.
  rewrite (list_fmap_compose (fun q => (q + - m)%Qc) Fin) in Hsd. set (es := (fun q => (q + - m)%Qc) <$> qs) in *.
  assert (Hen : es <> []) by (unfold es; by destruct qs).
  assert (Hel : length es = length qs) by (unfold es; by rewrite fmap_length).
  assert (He0 : Qc_sum es = 0%Qc).
  { unfold es. rewrite Qc_sum_sub. unfold m. field. done. }
  rewrite decide_False in Hsd by (intros E; apply fmap_nil_inv in E; done).
  destruct Hsd as (var & Hvar' & ->). cbn [reduced] in Hvar, Hvar'.
  rewrite Hqs, num_var_fin in Hvar by done. rewrite num_var_fin in Hvar' by done.
  apply (f_equal (fun n => match n with Fin q => q | _ => 0%Qc end)) in Hvar. cbv beta iota in Hvar.
  assert (var = Fin v) as ->.
  { rewrite Hvar', Hvar, Hel. do 3 f_equal. rewrite He0. fold m. unfold es. rewrite <-list_fmap_compose.
    apply list_fmap_ext. intros i q _. unfold compose. cbv zeta. unfold Qcdiv. ring. }
  rewrite Hsq. assert (Hs0 : s <> 0%Qc) by (intros ->; apply Hv0; rewrite <-Hss; ring).
  rewrite <-list_fmap_compose.
  assert (Hpm : present (((fun d => num_div d (Fin s)) ∘ (fun n => num_sub n (Fin m))) <$> ns) = Fin <$> ((fun e => (e * / s)%Qc) <$> es)).
  { unfold es. rewrite <-list_fmap_compose, <-list_fmap_compose. clear -Hqs Hs0. clearbody m. revert qs Hqs. induction ns as [|n ns IH]; intros qs Hqs.
    - by destruct qs.
    - rewrite fmap_cons. unfold present in *. rewrite filter_cons in Hqs |- *. destruct n as [q| | |].
      + rewrite decide_True in Hqs by done. destruct qs as [|q' qs]; [done|]. rewrite fmap_cons in Hqs.
        assert (q' = q) as -> by congruence. assert (filter (fun n => n <> NaN) ns = Fin <$> qs) as Hqs' by congruence.
        rewrite decide_True; [|unfold compose; cbn [num_sub num_neg num_add num_div]; by rewrite decide_False].
        rewrite fmap_cons. f_equal; [|by apply IH]. unfold compose, num_sub. cbn [num_neg num_add num_div]. by rewrite decide_False.
      + rewrite decide_False in Hqs by naive_solver. rewrite decide_False; [by apply IH|]. unfold compose. simpl. naive_solver.
      + rewrite decide_True in Hqs by done. by destruct qs.
      + rewrite decide_True in Hqs by done. by destruct qs. }
  rewrite Hpm. set (ts := (fun e => (e * / s)%Qc) <$> es).
  assert (Htn : ts <> []) by (unfold ts; by destruct es).
  assert (Htl : length ts = length qs) by (unfold ts; by rewrite fmap_length).
  assert (Ht0 : Qc_sum ts = 0%Qc) by (unfold ts; rewrite Qc_sum_scale, He0; ring).
  cbn [reduced]. split.
  - rewrite mean_fin by done. rewrite Ht0. unfold num_of_Z. f_equal. rewrite Qc_of_Z_0, Htl. field. done.
  - rewrite num_var_fin by done. rewrite Ht0, Htl. unfold num_of_Z. f_equal.
    assert (E : ((fun q => let d := (q + - (0 / Qc_of_Z (Z.of_nat (length qs))))%Qc in (d * d)%Qc) <$> ts) =
      (fun q => (q * (/ s * / s))%Qc) <$> ((fun q => let d := (q + - (Qc_sum qs / Qc_of_Z (Z.of_nat (length qs))))%Qc in (d * d)%Qc) <$> qs)).
    { unfold ts, es. rewrite <-!list_fmap_compose. apply list_fmap_ext. intros i q _. unfold compose. cbv zeta. fold m. unfold Qcdiv. ring. }
    cbv zeta in E, Hvar. rewrite E, Qc_sum_scale. match type of Hvar with _ = (?a / _)%Qc => set (S2 := a) in * end.
    assert (HS : S2 = (v * Qc_of_Z (Z.of_nat (length qs)))%Qc) by (rewrite Hvar; field; done).
    rewrite HS, <-Hss. replace (Qc_of_Z 1) with 1%Qc by (by apply Qc_is_canon). field. split; done.
Qed.
Theorem zscore_unit sqrt y axis z :
  valid y -> larry_zscore sqrt y axis = Ok z ->
  lanes_related (fun ns ms => forall v s, no_infinity ns -> present ns <> [] -> reduced (RVar 0) (present ns) (Fin v) -> v <> 0%Qc ->
    sqrt (Fin v) = Fin s -> (s * s)%Qc = v ->
    reduced RMean (present ms) (num_of_Z 0) /\ reduced (RVar 0) (present ms) (num_of_Z 1)) y axis z.
Proof.
  intros Hv Hz. assert (Hz' := Hz). unfold larry_zscore in Hz'. apply bind_ok in Hz' as (x & Hx & _).
  destruct (on_axis_inv _ _ _ _ Hv Hx) as [Hn Hax]. destruct (zscore_total sqrt y axis Hv Hn Hax) as (z' & Hz' & H).
  assert (z' = z) as -> by congruence. eapply lanes_related_impl; [|exact H]. intros ns ms Hzs v s. by apply zscored_unit.
Qed.
