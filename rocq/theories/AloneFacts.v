(** C115: lanes do not mix. *)
From Verif Require Import NumFacts RankFacts RankLarry MoveFacts SummaryFacts TwiceFacts CutFacts LaneFacts SpecFacts StepsFacts MovingFacts FarrayFacts ReorderFacts RefineOut LarryFacts PropsLarry PropsNumeric PropsFarray PropsMove PropsMoving PropsGroup.
From Verif Require Import Numeric.
From Verif Require Import Bounds2Facts Mono2Facts PartsFacts SpanFacts Span2Facts OneGroupFacts NamingFacts AheadFacts ThinFacts.
From Verif Require Export SpecAlone.

Lemma same_lane_values ax ls y y' vs vs' : same_lane ax ls y y' -> lane_of y ax ls vs -> lane_of y' ax ls vs' -> vs' = vs.
Proof.
  intros (HL & Hg & H) (l & Hl & F) (l' & Hl' & F'). rewrite HL in Hl'. assert (l' = l) as -> by congruence. specialize (H l).
  assert (HS : forall x, x ∈ l -> cell y' (with_label ax x ls) = cell y (with_label ax x ls)) by (intros x; by apply H). clear H Hl Hl' Hg HL.
  revert vs' F'. induction F as [|x v l vs Hv F IH]; intros vs' F'; inversion F' as [|? v' ? vs0 Hv' F0]; subst; [done|]. f_equal.
  - rewrite HS in Hv' by left. congruence.
  - apply IH; [intros u Hu; apply HS; by right|done].
Qed.
Lemma same_lane_axis ax ls y y' a : same_lane ax ls y y' -> axis_is y a ax -> axis_is y' a ax.
Proof. intros (HL & _). unfold axis_is. by rewrite HL. Qed.
(** A relation that determines the lane. *)
Definition one_result {A} (R : list A -> list num -> Prop) : Prop := forall ns ms ms' i, i < length ns -> R ns ms -> R ns ms' -> ms' !! i = ms !! i.
Lemma alone_lanes (R : list num -> list num -> Prop) y y' a ax ls z z' : one_result R -> axis_is y a ax -> same_lane ax ls y y' ->
  lanes_related R y (Some a) z -> lanes_related R y' (Some a) z' -> same_lane ax ls z z'.
Proof.
  intros HF Hax HS (V1 & D1 & L1 & ax1 & X1 & H1) (V2 & D2 & L2 & ax2 & X2 & H2). pose proof (same_lane_axis _ _ _ _ _ HS Hax) as Hax'.
  assert (ax1 = ax) as -> by (by eapply axis_is_fun). assert (ax2 = ax) as -> by (by eapply axis_is_fun).
  assert (HL : llabel y' = llabel y) by apply HS. assert (Hg : in_grid (delete ax (llabel y)) ls) by apply HS.
  split; [congruence|]. split; [by rewrite L1|]. intros l x Hl [i Hx]%elem_of_list_lookup. rewrite L1 in Hl.
  destruct (H1 ls Hg) as (vs & ns & ms & Hvs & Hns & (l2 & Hl2 & F) & HR). rewrite HL in H2. destruct (H2 ls Hg) as (vs' & ns' & ms' & Hvs' & Hns' & (l4 & Hl4 & F') & HR').
  assert (l2 = l) as -> by congruence. assert (l4 = l) as -> by congruence.
  assert (vs' = vs) as -> by (by eapply same_lane_values). assert (ns' = ns) as -> by (by eapply numbers_unique).
  assert (E : ms' !! i = ms !! i).
  { apply (HF ns); [|done..]. rewrite <-(Forall2_length _ _ _ Hns). destruct Hvs as (l1 & Hl1 & Fv). assert (l1 = l) as -> by congruence. rewrite <-(Forall2_length _ _ _ Fv). by eapply lookup_lt_Some. }
  destruct (Forall2_lookup_l _ _ _ _ _ F Hx) as (w & Hw & Hc). destruct (Forall2_lookup_l _ _ _ _ _ F' Hx) as (w' & Hw' & Hc').
  rewrite list_lookup_fmap, E in Hw'. rewrite list_lookup_fmap in Hw. congruence.
Qed.
Lemma causal_one {A} (R : list A -> list num -> Prop) : causal R -> one_result R.
Proof. intros H ns ms ms' i Hi HR HR'. by apply (H ns ns ms ms' (length ns)). Qed.
Lemma by_present_one R : by_present R -> one_result R.
Proof. intros H ns ms ms' i Hi HR HR'. apply lookup_lt_is_Some_2 in Hi as [n Hn]. symmetry. by apply (H ns ns ms ms' i i n). Qed.
Lemma fun_one (R : list num -> list num -> Prop) : (forall l m m', R l m -> R l m' -> m = m') -> one_result R.
Proof. intros H ns ms ms' i _ HR HR'. by rewrite (H ns ms ms' HR HR'). Qed.
Lemma median_causal w : causal (moved_by median_or_nan w).
Proof. apply causal_moved. intros u m m' K K'. apply (reduced_or_nan_fun RMedian u); [unfold spans; tauto|by apply median_reduced..]. Qed.

Theorem alone_reduce op y y' a ax ls : op = RSum \/ op = RMean \/ op = RMedian \/ op = RMin \/ op = RMax \/ (exists d, op = RVar d) ->
  valid y -> nonempty y -> arithmetic (ldtype y) -> valid y' -> arithmetic (ldtype y') -> axis_is y a ax -> same_lane ax ls y y' ->
  exists b b', larry_reduce op y (Some a) = Ok b /\ larry_reduce op y' (Some a) = Ok b' /\ same_number_at ls b b'.
Proof.
  intros Hop' Hv Hne Ha Hv' Ha' Hax HS. assert (Hop : counts_present op) by (unfold counts_present, spans; tauto). pose proof (same_lane_axis _ _ _ _ _ HS Hax) as Hax'.
  assert (HP : op <> RProd) by (destruct Hop as [[->|[->|[->|[->| ->]]]]|[d ->]]; done). destruct HS as (HL & Hg & HC). assert (Hne' : nonempty y') by (unfold nonempty in *; by rewrite HL).
  destruct (C33_reduce_succeeds op y (Some a)) as (b & Eb & Rb); try done; [by exists ax|].
  destruct (C33_reduce_succeeds op y' (Some a)) as (b' & Eb' & Rb'); try done; [by exists ax|].
  exists b, b'. split; [done|]. split; [done|]. destruct (lookup_lt_is_Some_2 (llabel y) ax) as (l & Hl); [by destruct Hax|].
  destruct (lane_total y ax l ls) as [vs Hvs]; try done. destruct (lane_total y' ax l ls) as [vs' Hvs']; try done; [by rewrite HL..|].
  assert (vs' = vs) as -> by (by eapply same_lane_values).
  destruct (reduction_at op y a ax b ls vs Hax Rb Hg Hvs) as (v & Hvb & Hr). destruct (reduction_at op y' a ax b' ls vs Hax' Rb') as (v' & Hvb' & Hr'); [by rewrite HL|done|].
  destruct (counts_reduces op vs v Hop Hr) as (ns & m & Hns & Hm & HR). destruct (counts_reduces op vs v' Hop Hr') as (ns' & m' & Hns' & Hm' & HR').
  assert (ns' = ns) as -> by (by eapply numbers_unique). exists v, v', m. split_and!; try done. rewrite Hm'. f_equal.
  unfold reduced_or_nan in *. case_decide; [congruence|]. by eapply counts_fun.
Qed.
Theorem alone_ranking ndtri y y' a ax ls : valid y -> numeric_larry y -> valid y' -> numeric_larry y' -> axis_is y a ax -> same_lane ax ls y y' ->
  exists z z', larry_ranking ndtri y (Some a) NormOne = Ok z /\ larry_ranking ndtri y' (Some a) NormOne = Ok z' /\ same_lane ax ls z z'.
Proof.
  intros Hv Hn Hv' Hn' Hax HS. pose proof (same_lane_axis _ _ _ _ _ HS Hax) as Hax'.
  destruct (C41_succeeds ndtri y (Some a) NormOne) as (z & Ez); try done; [by exists ax|]. destruct (C41_succeeds ndtri y' (Some a) NormOne) as (z' & Ez'); try done; [by exists ax|].
  exists z, z'. split; [done|]. split; [done|].
  exact (alone_lanes _ y y' a ax ls z z' (by_present_one _ present_ranked) Hax HS (C41_ranks _ _ _ _ Hv Ez) (C41_ranks _ _ _ _ Hv' Ez')).
Qed.
Theorem alone_normalise m root y y' a ax ls : m ∈ [larry_demean; larry_demedian; larry_zscore root] ->
  valid y -> numeric_larry y -> valid y' -> numeric_larry y' -> axis_is y a ax -> same_lane ax ls y y' ->
  exists z z', m y (Some a) = Ok z /\ m y' (Some a) = Ok z' /\ same_lane ax ls z z'.
Proof.
  intros Hm Hv Hn Hv' Hn' Hax HS. pose proof (same_lane_axis _ _ _ _ _ HS Hax) as Hax'.
  rewrite !elem_of_cons, elem_of_nil in Hm. destruct Hm as [-> |[-> |[-> |[]]]].
  - destruct (C56_demean y (Some a)) as (z & Ez & H); try done; [by exists ax|]. destruct (C56_demean y' (Some a)) as (z' & Ez' & H'); try done; [by exists ax|].
    exists z, z'. split; [done|]. split; [done|]. refine (alone_lanes _ y y' a ax ls z z' (by_present_one _ (present_centred _ _)) Hax HS H H'). congruence.
  - destruct (C56_demedian y (Some a)) as (z & Ez & H); try done; [by exists ax|]. destruct (C56_demedian y' (Some a)) as (z' & Ez' & H'); try done; [by exists ax|].
    exists z, z'. split; [done|]. split; [done|]. refine (alone_lanes _ y y' a ax ls z z' (by_present_one _ (present_centred _ _)) Hax HS H H'). exact median_of_fun.
  - destruct (C64_zscore root y (Some a)) as (z & Ez & H); try done; [by exists ax|]. destruct (C64_zscore root y' (Some a)) as (z' & Ez' & H'); try done; [by exists ax|].
    exists z, z'. split; [done|]. split; [done|]. exact (alone_lanes _ y y' a ax ls z z' (by_present_one _ (present_zscored root)) Hax HS H H').
Qed.
Theorem alone_move op y y' w a ax l ls : (forall root, op = MStd root -> root NaN = NaN) -> valid y -> numeric_larry y -> valid y' -> numeric_larry y' ->
  axis_is y a ax -> llabel y !! ax = Some l -> (1 <= w <= Z.of_nat (length l))%Z -> same_lane ax ls y y' ->
  exists z z', larry_move op y w (Some a) = Ok z /\ larry_move op y' w (Some a) = Ok z' /\ same_lane ax ls z z'.
Proof.
  intros Hop Hv Hn Hv' Hn' Hax Hl Hw HS. pose proof (same_lane_axis _ _ _ _ _ HS Hax) as Hax'. assert (Hl' : llabel y' !! ax = Some l) by (destruct HS as [-> _]; done).
  destruct op as [| |root| |].
  - destruct (C82_sum_partial y w a ax l) as (z & Ez & H); try done. destruct (C82_sum_partial y' w a ax l) as (z' & Ez' & H'); try done.
    exists z, z'. split; [done|]. split; [done|]. exact (alone_lanes _ y y' a ax ls z z' (causal_one _ (causal_sum _ _ _)) Hax HS H H').
  - destruct (C82_mean_partial y w a ax l) as (z & Ez & H); try done. destruct (C82_mean_partial y' w a ax l) as (z' & Ez' & H'); try done.
    exists z, z'. split; [done|]. split; [done|]. refine (alone_lanes _ y y' a ax ls z z' (causal_one _ (causal_moving _ _ _)) Hax HS H H'). intros ? ? ?. apply reduced_or_nan_fun. unfold spans. tauto.
  - destruct (C82_std_partial root y w a ax l) as (z & Ez & H); try done; [by apply Hop|]. destruct (C82_std_partial root y' w a ax l) as (z' & Ez' & H'); try done; [by apply Hop|].
    exists z, z'. split; [done|]. split; [done|]. refine (alone_lanes _ y y' a ax ls z z' (causal_one _ (causal_moving _ _ _)) Hax HS H H'). intros ? ? ?. apply std_fun.
  - destruct (C82_min y w a ax l) as (z & Ez & H); try done. destruct (C82_min y' w a ax l) as (z' & Ez' & H'); try done.
    exists z, z'. split; [done|]. split; [done|]. refine (alone_lanes _ y y' a ax ls z z' (causal_one _ (causal_moved _ _ _)) Hax HS H H'). intros ? ? ?. apply reduced_or_nan_fun. unfold spans. tauto.
  - destruct (C82_max y w a ax l) as (z & Ez & H); try done. destruct (C82_max y' w a ax l) as (z' & Ez' & H'); try done.
    exists z, z'. split; [done|]. split; [done|]. refine (alone_lanes _ y y' a ax ls z z' (causal_one _ (causal_moved _ _ _)) Hax HS H H'). intros ? ? ?. apply reduced_or_nan_fun. unfold spans. tauto.
Qed.
Theorem alone_windows m layout method y y' w a ax l ls : m ∈ [larry_move_median; larry_move_ranking] -> good_layout layout -> valid y -> numeric_larry y -> valid y' -> numeric_larry y' ->
  axis_is y a ax -> llabel y !! ax = Some l -> (1 <= w <= Z.of_nat (length l))%Z -> method = MLoop \/ method = MStrides /\ length (llabel y) <= 3 -> same_lane ax ls y y' ->
  exists z z', m layout y w (Some a) method = Ok z /\ m layout y' w (Some a) method = Ok z' /\ same_lane ax ls z z'.
Proof.
  intros Hop Hlay Hv Hn Hv' Hn' Hax Hl Hw Hm HS. pose proof (same_lane_axis _ _ _ _ _ HS Hax) as Hax'. assert (HL : llabel y' = llabel y) by apply HS. assert (Hl' : llabel y' !! ax = Some l) by (by rewrite HL).
  rewrite !elem_of_cons, elem_of_nil in Hop. destruct Hop as [-> |[-> |[]]].
  - destruct (C40_median layout y w a ax l method) as (z & Ez & H); try done. destruct (C40_median layout y' w a ax l method) as (z' & Ez' & H'); try done; [by rewrite HL|].
    exists z, z'. split; [done|]. split; [done|]. exact (alone_lanes _ y y' a ax ls z z' (causal_one _ (median_causal _)) Hax HS H H').
  - destruct (C40_ranking layout y w a ax l method) as (z & Ez & H); try done. destruct (C40_ranking layout y' w a ax l method) as (z' & Ez' & H'); try done; [by rewrite HL|].
    exists z, z'. split; [done|]. split; [done|]. refine (alone_lanes _ y y' a ax ls z z' (causal_one _ (causal_moved _ _ _)) Hax HS H H'). intros ? ? ?. apply last_ranked_fun.
Qed.
Lemma alone_within (R : list num -> list num -> Prop) y y' a ax l ls gs z z' : (forall l m m', R l m -> R l m' -> m = m') -> axis_is y a ax -> llabel y !! ax = Some l -> length gs = length l -> same_lane ax ls y y' ->
  lanes_related (within_groups R gs) y (Some a) z -> lanes_related (within_groups R gs) y' (Some a) z' -> same_lane ax ls z z'.
Proof.
  intros HF Hax Hl Hlen HS H H'. pose proof (same_lane_axis _ _ _ _ _ HS Hax) as Hax'. assert (HL : llabel y' = llabel y) by apply HS.
  apply (alone_lanes (fun ns ms => length ns = length l /\ within_groups R gs ns ms) y y' a ax ls); try done.
  - intros ns ms ms' i Hi [E K] [_ K']. by rewrite (within_fun R gs ns ms ms' HF ltac:(lia) K K').
  - destruct H as (V & D & L & ax1 & X & H). assert (ax1 = ax) as -> by (by eapply axis_is_fun). split; [done|]. split; [done|]. split; [done|]. exists ax. split; [done|].
    intros us Hg. destruct (H us Hg) as (vs & ns & ms & Hvs & Hns & Hms & K). exists vs, ns, ms. split_and!; try done.
    destruct Hvs as (l1 & Hl1 & F). assert (l1 = l) as -> by congruence. rewrite (Forall2_length _ _ _ F). symmetry. by eapply Forall2_length.
  - destruct H' as (V & D & L & ax1 & X & H'). assert (ax1 = ax) as -> by (by eapply axis_is_fun). split; [done|]. split; [done|]. split; [done|]. exists ax. split; [done|].
    intros us Hg. destruct (H' us Hg) as (vs & ns & ms & Hvs & Hns & Hms & K). exists vs, ns, ms. split_and!; try done.
    destruct Hvs as (l1 & Hl1 & F). assert (l1 = l) as -> by congruence. rewrite (Forall2_length _ _ _ F). symmetry. by eapply Forall2_length.
Qed.
Theorem alone_group m y y' group a ax l gs ls : m ∈ [larry_group_mean; larry_group_median; larry_group_ranking] ->
  valid y -> numeric_larry y -> valid y' -> numeric_larry y' -> valid group -> length (llabel group) = 1 ->
  axis_is y a ax -> llabel y !! ax = Some l -> groups_of group l gs -> groups_sortable gs -> same_lane ax ls y y' ->
  exists z z', m y (Some group) a = Ok z /\ m y' (Some group) a = Ok z' /\ same_lane ax ls z z'.
Proof.
  intros Hm Hv Hn Hv' Hn' Vg Ng Hax Hl Hg Hs HS. assert (HL : llabel y' = llabel y) by apply HS.
  pose proof (same_lane_axis _ _ _ _ _ HS Hax) as Hax'. assert (Hl' : llabel y' !! ax = Some l) by congruence. assert (Hlen : length gs = length l) by (by eapply group_length).
  rewrite !elem_of_cons, elem_of_nil in Hm. destruct Hm as [-> |[-> |[-> |[]]]].
  - destruct (C44_mean y group a ax l gs) as (z & Ez & H1); try done. destruct (C44_mean y' group a ax l gs) as (z' & Ez' & H2); try done.
    exists z, z'. split; [done|]. split; [done|]. exact (alone_within _ y y' a ax l ls gs z z' all_mean_fun Hax Hl Hlen HS H1 H2).
  - destruct (C44_median y group a ax l gs) as (z & Ez & H1); try done. destruct (C44_median y' group a ax l gs) as (z' & Ez' & H2); try done.
    exists z, z'. split; [done|]. split; [done|]. exact (alone_within _ y y' a ax l ls gs z z' all_median_fun Hax Hl Hlen HS H1 H2).
  - destruct (C44_ranking y group a ax l gs) as (z & Ez & H1); try done. destruct (C44_ranking y' group a ax l gs) as (z' & Ez' & H2); try done.
    exists z, z'. split; [done|]. split; [done|]. refine (alone_within _ y y' a ax l ls gs z z' _ Hax Hl Hlen HS H1 H2). intros ? ? ?. apply ranked_fun.
Qed.
Theorem alone_std root d y y' a ax ls : valid y -> nonempty y -> arithmetic (ldtype y) -> valid y' -> arithmetic (ldtype y') -> axis_is y a ax -> same_lane ax ls y y' ->
  exists b b', larry_std root y (Some a) d = Ok b /\ larry_std root y' (Some a) d = Ok b' /\ same_number_at ls b b'.
Proof.
  intros Hv Hne Ha Hv' Ha' Hax HS. pose proof (same_lane_axis _ _ _ _ _ HS Hax) as Hax'. pose proof HS as (HL & Hg & _). assert (Hne' : nonempty y') by (unfold nonempty in *; by rewrite HL).
  destruct (C33_std root y (Some a) d) as (b & Eb & Rb); try done; [by exists ax|].
  destruct (C33_std root y' (Some a) d) as (b' & Eb' & Rb'); try done; [by exists ax|].
  exists b, b'. split; [done|]. split; [done|]. destruct (lookup_lt_is_Some_2 (llabel y) ax) as (l & Hl); [by destruct Hax|].
  destruct (lane_total y ax l ls) as [vs Hvs]; try done. destruct (lane_total y' ax l ls) as [vs' Hvs']; try done; [by rewrite HL..|].
  assert (vs' = vs) as -> by (by eapply same_lane_values).
  destruct (reduction_by_at _ y a ax b ls vs Hax Rb Hg Hvs) as (v & Hvb & m & Hr & ->). destruct (reduction_by_at _ y' a ax b' ls vs Hax' Rb') as (v' & Hvb' & m' & Hr' & ->); [by rewrite HL|done|].
  destruct Hr as (ns & m1 & Hns & [= <-] & HR), Hr' as (ns' & m1' & Hns' & [= <-] & HR').
  assert (ns' = ns) as -> by (by eapply numbers_unique). eexists _, _, (root m). split_and!; try done. simpl. do 2 f_equal.
  case_decide; [congruence|]. simpl in *. congruence.
Qed.
Theorem alone_movingsum y y' w s norm a ax l ls : valid y -> numeric_larry y -> valid y' -> numeric_larry y' ->
  axis_is y a ax -> llabel y !! ax = Some l -> (1 <= w <= Z.of_nat (length l))%Z -> s <= length l -> same_lane ax ls y y' ->
  exists x x', np_movingsum (lx y) w s a norm = Ok x /\ np_movingsum (lx y') w s a norm = Ok x' /\ same_lane ax ls (Larry x (llabel y)) (Larry x' (llabel y')).
Proof.
  intros Hv Hn Hv' Hn' Hax Hl Hw Hs HS. pose proof (same_lane_axis _ _ _ _ _ HS Hax) as Hax'. assert (Hl' : llabel y' !! ax = Some l) by (destruct HS as [-> _]; done).
  destruct (C39_movingsum_partial y w s a norm ax l) as (x & Ex & H); try done. destruct (C39_movingsum_partial y' w s a norm ax l) as (x' & Ex' & H'); try done.
  exists x, x'. split; [done|]. split; [done|]. exact (alone_lanes _ y y' a ax ls _ _ (causal_one _ (causal_sum _ _ _)) Hax HS H H').
Qed.
Theorem alone_push y y' n a ax ls : valid y -> arithmetic (ldtype y) -> valid y' -> arithmetic (ldtype y') -> axis_is y a ax -> same_lane ax ls y y' ->
  exists z z', larry_push y n a = Ok z /\ larry_push y' n a = Ok z' /\ same_lane ax ls z z'.
Proof.
  intros Hv Ha Hv' Ha' Hax HS. pose proof (same_lane_axis _ _ _ _ _ HS Hax) as Hax'. pose proof HS as (HL & Hg & _).
  destruct (C37_push y n a ax) as (z & Ez & Vz & Dz & Lz & H); try done. destruct (C37_push y' n a ax) as (z' & Ez' & Vz' & Dz' & Lz' & H'); try done.
  exists z, z'. split; [done|]. split; [done|]. split; [congruence|]. split; [by rewrite Lz|]. rewrite Lz. intros l x Hl Hin. pose proof Hin as [i Hx]%elem_of_list_lookup.
  assert (Hgr : in_grid (llabel y) (with_label ax x ls)) by (by eapply with_label_grid).
  destruct (H _ Hgr) as (vs & j & v & Hi & Hc & HP). rewrite HL in H'. destruct (H' _ Hgr) as (vs' & j' & v' & Hi' & Hc' & HP').
  destruct (in_lane_at y ax ls l i x vs j) as [Hvs ->]; try done. destruct (in_lane_at y' ax ls l i x vs' j') as [Hvs' ->]; try done; [by rewrite HL..|].
  assert (vs' = vs) as -> by (by eapply same_lane_values). rewrite Hc, Hc'. f_equal. refine (pushed_less n vs vs (S i) i v v' eq_refl _ HP HP'); lia.
Qed.
Theorem alone_cum op y y' a ax ls : valid y -> arithmetic (ldtype y) -> valid y' -> arithmetic (ldtype y') -> axis_is y a ax -> same_lane ax ls y y' ->
  exists z z', larry_cum op y (Some a) = Ok z /\ larry_cum op y' (Some a) = Ok z' /\ same_lane_num ax ls z z'.
Proof.
  intros Hv Ha Hv' Ha' Hax HS. pose proof (same_lane_axis _ _ _ _ _ HS Hax) as Hax'. pose proof HS as (HL & Hg & _).
  destruct (C32_cum_succeeds op y a ax Hv Ha Hax) as [z Hz]. destruct (C32_cum_succeeds op y' a ax Hv' Ha' Hax') as [z' Hz'].
  exists z, z'. split; [done|]. split; [done|].
  destruct (C32_cum _ _ _ _ Hv Hz) as (a1 & ax1 & [= <-] & X1 & _ & Vz & Lz & H). destruct (C32_cum _ _ _ _ Hv' Hz') as (a2 & ax2 & [= <-] & X2 & _ & Vz' & Lz' & H').
  assert (ax1 = ax) as -> by (by eapply axis_is_fun). assert (ax2 = ax) as -> by (by eapply axis_is_fun).
  split; [congruence|]. split; [by rewrite Lz|]. rewrite Lz. intros l x Hl Hin. pose proof Hin as [i Hx]%elem_of_list_lookup.
  assert (Hgr : in_grid (llabel y) (with_label ax x ls)) by (by eapply with_label_grid).
  destruct (H _ Hgr) as (vs & j & v & Hi & Hc & HP). rewrite HL in H'. destruct (H' _ Hgr) as (vs' & j' & v' & Hi' & Hc' & HP').
  destruct (in_lane_at y ax ls l i x vs j) as [Hvs ->]; try done. destruct (in_lane_at y' ax ls l i x vs' j') as [Hvs' ->]; try done; [by rewrite HL..|].
  assert (vs' = vs) as -> by (by eapply same_lane_values).
  destruct HP as (ns & n & m & Hns & Hn & Hm & Em), HP' as (ns' & n' & m' & Hns' & Hn' & Hm' & Em').
  assert (ns' = ns) as -> by (by eapply numbers_unique). assert (n' = n) as -> by congruence.
  assert (m' = m) as -> by (destruct op; congruence). by exists v, v', m.
Qed.
Theorem alone_forward y y' w s norm a ax l ls : valid y -> numeric_larry y -> valid y' -> numeric_larry y' ->
  axis_is y a ax -> llabel y !! ax = Some l -> (1 <= w <= Z.of_nat (length l))%Z -> s <= length l -> same_lane ax ls y y' ->
  exists z z', larry_movingsum_forward y w s a norm = Ok z /\ larry_movingsum_forward y' w s a norm = Ok z' /\ same_lane ax ls z z'.
Proof.
  intros Hv Hn Hv' Hn' Hax Hl Hw Hs HS. pose proof (same_lane_axis _ _ _ _ _ HS Hax) as Hax'. assert (Hl' : llabel y' !! ax = Some l) by (destruct HS as [-> _]; done).
  destruct (C39_forward_partial y w s a norm ax l) as (z & Ez & H); try done. destruct (C39_forward_partial y' w s a norm ax l) as (z' & Ez' & H'); try done.
  exists z, z'. split; [done|]. split; [done|]. refine (alone_lanes _ y y' a ax ls z z' _ Hax HS H H').
  intros ns ms ms' i Hi K K'. pose proof (proj1 K) as E. pose proof (proj1 K') as E'. rewrite !reverse_length in E, E'.
  refine (causal_back _ ns ns ms ms' 0 i (causal_sum _ _ _) eq_refl E E' eq_refl K K' _ Hi). lia.
Qed.
