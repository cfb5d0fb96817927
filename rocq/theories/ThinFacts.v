(** C113: labels at which everything is missing do not count. *)
From Verif Require Import NumFacts RankFacts RankLarry MoveFacts SummaryFacts TwiceFacts CutFacts LaneFacts SpecFacts StepsFacts MovingFacts FarrayFacts ReorderFacts RefineOut LarryFacts PropsLarry PropsNumeric PropsFarray.
From Verif Require Import Numeric.
From Verif Require Import Bounds2Facts Mono2Facts PartsFacts SpanFacts Span2Facts.
From Verif Require Export SpecThin.

Lemma thin_present P l l' (c c' : lab -> option val) vs vs' ns ns' : kept P l l' -> (forall x, x ∈ l -> (P x -> c' x = c x) /\ (~ P x -> c x = Some (VFloat NaN))) ->
  Forall2 (fun x v => c x = Some v) l vs -> Forall2 (fun x v => c' x = Some v) l' vs' -> numbers vs ns -> numbers vs' ns' -> present ns' = present ns.
Proof.
  intros HK. revert vs vs' ns ns'. induction HK as [|x l l' Px HK IH|x l l' Px HK IH]; intros vs vs' ns ns' H F F' N N'.
  - inversion F; subst. inversion F'; subst. inversion N; subst. by inversion N'.
  - inversion F as [|? v ? vs0 Hv F0]; subst. inversion F' as [|? v' ? vs0' Hv' F0']; subst. inversion N as [|? n ? ns0 Hn N0]; subst. inversion N' as [|? n' ? ns0' Hn' N0']; subst.
    destruct (H x) as [E _]; [by left|]. assert (v' = v) as -> by (rewrite (E Px) in Hv'; congruence). assert (n' = n) as -> by congruence.
    unfold present in *. rewrite !(filter_cons _ n). assert (IH' := IH vs0 vs0' ns0 ns0' (fun u Hu => H u (elem_of_list_further _ _ _ Hu)) F0 F0' N0 N0').
    case_decide; by rewrite IH'.
  - inversion F as [|? v ? vs0 Hv F0]; subst. inversion N as [|? n ? ns0 Hn N0]; subst. destruct (H x) as [_ E]; [by left|].
    rewrite (E Px) in Hv. simplify_eq. simpl in Hn. simplify_eq. unfold present in *. rewrite filter_cons_False by (intros K; by apply K).
    apply (IH vs0 vs' ns0 ns'); try done. intros u Hu. apply H. by right.
Qed.
Lemma thin_lane ax y y' ls vs vs' ns ns' : thinned ax y y' -> in_grid (delete ax (llabel y)) ls -> lane_of y ax ls vs -> lane_of y' ax ls vs' ->
  numbers vs ns -> numbers vs' ns' -> present ns' = present ns.
Proof.
  intros (P & l & l' & Hl & HK & HL & H) Hg (l1 & Hl1 & F) (l2 & Hl2 & F') N N'. assert (l1 = l) as -> by congruence.
  rewrite HL, list_lookup_insert in Hl2 by (by eapply lookup_lt_Some). injection Hl2 as <-.
  exact (thin_present P l l' (fun x => cell y (with_label ax x ls)) (fun x => cell y' (with_label ax x ls)) vs vs' ns ns' HK (fun x Hx => H ls x Hg Hx) F F' N N').
Qed.
Lemma thin_delete ax y y' : thinned ax y y' -> delete ax (llabel y') = delete ax (llabel y).
Proof. intros (P & l & l' & Hl & HK & HL & H). rewrite HL. apply delete_insert_same. Qed.
Lemma thin_length ax y y' : thinned ax y y' -> length (llabel y') = length (llabel y).
Proof. intros (P & l & l' & Hl & HK & HL & H). rewrite HL. apply insert_length. Qed.
Lemma thin_axis ax y y' a : thinned ax y y' -> axis_is y a ax -> axis_is y' a ax.
Proof. intros H. unfold axis_is. by rewrite (thin_length ax y y' H). Qed.

(** Reductions. *)
Definition counts_present (op : red_op) : Prop := spans op \/ exists d, op = RVar d.
Lemma counts_fun op l m m' : counts_present op -> reduced op l m -> reduced op l m' -> m = m'.
Proof. intros [H|[d ->]]; [by apply reduced_fun|]. simpl. congruence. Qed.
Lemma counts_reduces op vs v : counts_present op -> reduces op vs v -> exists ns m, numbers vs ns /\ to_num v = Some m /\ reduced_or_nan op ns m.
Proof. intros [H|[d ->]]; [by apply spans_reduces|done]. Qed.
Lemma lane_total y ax l ls : valid y -> llabel y !! ax = Some l -> in_grid (delete ax (llabel y)) ls -> exists vs, lane_of y ax ls vs.
Proof.
  intros Hv Hl Hg. assert (H : forall l0, (forall x, x ∈ l0 -> x ∈ l) -> exists vs, Forall2 (fun x v => cell y (with_label ax x ls) = Some v) l0 vs).
  { induction l0 as [|x l0 IH]; intros Hs; [by exists []|]. destruct IH as [vs Hvs]; [intros u Hu; apply Hs; by right|].
    assert (is_Some (cell y (with_label ax x ls))) as [v Hc].
    { apply (valid_cell_grid y _ Hv). eapply with_label_grid; [done| |done]. apply Hs. by left. }
    exists (v :: vs). by constructor. }
  destruct (H l) as [vs Hvs]; [done|]. exists vs. by exists l.
Qed.
Theorem thin_reduce op y y' a ax : counts_present op -> valid y -> nonempty y -> arithmetic (ldtype y) -> valid y' -> nonempty y' -> arithmetic (ldtype y') ->
  axis_is y a ax -> thinned ax y y' ->
  exists b b', larry_reduce op y (Some a) = Ok b /\ larry_reduce op y' (Some a) = Ok b' /\ same_numbers_out (delete ax (llabel y)) b b'.
Proof.
  intros Hop Hv Hne Ha Hv' Hne' Ha' Hax HT. pose proof (thin_axis ax y y' a HT Hax) as Hax'.
  assert (HP : op <> RProd) by (destruct Hop as [[->|[->|[->|[->| ->]]]]|[d ->]]; done).
  destruct (C33_reduce_succeeds op y (Some a)) as (b & Eb & Rb); try done; [by exists ax|].
  destruct (C33_reduce_succeeds op y' (Some a)) as (b' & Eb' & Rb'); try done; [by exists ax|].
  exists b, b'. split; [done|]. split; [done|]. intros ls Hg. destruct (lookup_lt_is_Some_2 (llabel y) ax) as (l & Hl); [by destruct Hax|].
  destruct (lookup_lt_is_Some_2 (llabel y') ax) as (l' & Hl'); [by destruct Hax'|].
  destruct (lane_total y ax l ls) as [vs Hvs]; try done. pose proof Hg as Hg'. rewrite <-(thin_delete ax y y' HT) in Hg'. destruct (lane_total y' ax l' ls) as [vs' Hvs']; try done.
  destruct (reduction_at op y a ax b ls vs Hax Rb Hg Hvs) as (v & Hvb & Hr). destruct (reduction_at op y' a ax b' ls vs' Hax' Rb' Hg' Hvs') as (v' & Hvb' & Hr').
  destruct (counts_reduces op vs v Hop Hr) as (ns & m & Hns & Hm & HR). destruct (counts_reduces op vs' v' Hop Hr') as (ns' & m' & Hns' & Hm' & HR').
  assert (E : present ns' = present ns) by (by eapply thin_lane). exists v, v', m. split_and!; try done. rewrite Hm'. f_equal.
  unfold reduced_or_nan in *. rewrite E in HR'. case_decide; [congruence|]. by eapply counts_fun.
Qed.
(** Functions of each element and the others along the axis. *)
Definition by_present (R : list num -> list num -> Prop) : Prop :=
  forall ns ns' ms ms' i i' n, present ns' = present ns -> R ns ms -> R ns' ms' -> ns !! i = Some n -> ns' !! i' = Some n -> ms !! i = ms' !! i'.
Lemma thin_lanes (R : list num -> list num -> Prop) y y' a ax z z' : by_present R -> axis_is y a ax -> thinned ax y y' -> lanes_related R y (Some a) z -> lanes_related R y' (Some a) z' -> same_where_kept z z'.
Proof.
  intros HR Hax HT (V1 & D1 & L1 & ax1 & X1 & H1) (V2 & D2 & L2 & ax2 & X2 & H2). pose proof (thin_axis ax y y' a HT Hax) as Hax'.
  assert (ax1 = ax) as -> by (by eapply axis_is_fun). assert (ax2 = ax) as -> by (by eapply axis_is_fun).
  intros ls Hg. rewrite L2 in Hg. assert (Hg' : in_grid (delete ax (llabel y')) (delete ax ls)) by (by apply Forall2_delete).
  destruct (H2 _ Hg') as (vs' & ns' & ms' & Hvs' & Hns' & Hms' & HR'). rewrite (thin_delete ax y y' HT) in Hg'.
  destruct (H1 _ Hg') as (vs & ns & ms & Hvs & Hns & Hms & HR1).
  assert (E : present ns' = present ns) by (by eapply thin_lane).
  destruct HT as (P & l & l' & Hl & HK & HL & H). assert (Hl' : llabel y' !! ax = Some l') by (rewrite HL; apply list_lookup_insert; by eapply lookup_lt_Some).
  destruct (in_grid_lookup _ _ _ _ Hg Hl') as (x & Ex & Hx). pose proof (proj1 (kept_elem P l l' x HK) Hx) as [Hxl Px].
  apply elem_of_list_lookup in Hx as [i' Hx']. pose proof Hxl as Hxl'. apply elem_of_list_lookup in Hxl' as [i Hxi].
  destruct Hvs as (l1 & Hl1 & F1), Hvs' as (l2 & Hl2 & F2), Hms as (l3 & Hl3 & F3), Hms' as (l4 & Hl4 & F4).
  assert (l1 = l) as -> by congruence. assert (l2 = l') as -> by congruence. assert (l3 = l) as -> by congruence. assert (l4 = l') as -> by congruence.
  destruct (Forall2_lookup_l _ _ _ _ _ F1 Hxi) as (v & Hv & Hc). destruct (Forall2_lookup_l _ _ _ _ _ F2 Hx') as (v' & Hv' & Hc').
  destruct (H (delete ax ls) x Hg' Hxl) as [HE _]. rewrite (HE Px) in Hc'. assert (v' = v) as -> by congruence.
  destruct (Forall2_lookup_l _ _ _ _ _ Hns Hv) as (n & Hn & Ht). destruct (Forall2_lookup_l _ _ _ _ _ Hns' Hv') as (n' & Hn' & Ht'). assert (n' = n) as -> by congruence.
  pose proof (HR ns ns' ms ms' i i' n E HR1 HR' Hn Hn') as EM.
  destruct (Forall2_lookup_l _ _ _ _ _ F3 Hxi) as (w & Hw & Hz). destruct (Forall2_lookup_l _ _ _ _ _ F4 Hx') as (w' & Hw' & Hz').
  rewrite (with_label_delete _ _ _ Ex) in Hz, Hz'. rewrite list_lookup_fmap in Hw, Hw'. rewrite EM in Hw. congruence.
Qed.
Lemma present_centred (c : list num -> num -> Prop) : (forall l m m', c l m -> c l m' -> m = m') -> by_present (centred c).
Proof.
  intros HF ns ns' ms ms' i i' n E (mu & Hmu & ->) (mu' & Hmu' & ->) Hn Hn'. rewrite E in Hmu'. assert (mu' = mu) as -> by (case_decide; [congruence|by eapply HF]).
  by rewrite !list_lookup_fmap, Hn, Hn'.
Qed.
Lemma present_map (f : num -> num) ns : f NaN = NaN -> present (f <$> ns) = present (f <$> present ns).
Proof.
  intros Hf. unfold present. induction ns as [|n ns IH]; [done|]. rewrite fmap_cons. destruct (decide (n = NaN)) as [->|Hn].
  - rewrite Hf. rewrite (filter_cons_False _ NaN (f <$> ns)) by (intros K; by apply K). rewrite (filter_cons_False _ NaN ns) by (intros K; by apply K). done.
  - rewrite (filter_cons_True _ n ns) by done. rewrite fmap_cons, !(filter_cons _ (f n)). case_decide; by rewrite IH.
Qed.
Lemma median_of_fun l m m' : median_of l m -> median_of l m' -> m = m'.
Proof. apply (reduced_fun RMedian). unfold spans. tauto. Qed.
Lemma present_zscored root : by_present (zscored root).
Proof.
  intros ns ns' ms ms' i i' n E (ds & sd & Hd & Hs & ->) (ds' & sd' & Hd' & Hs' & ->) Hn Hn'.
  assert (ED : ds !! i = ds' !! i') by (eapply (present_centred (fun l mu => mu = mean_of l)); [congruence|exact E|exact Hd|exact Hd'|exact Hn|exact Hn']).
  assert (EP : present ds' = present ds).
  { destruct Hd as (mu & Hmu & ->), Hd' as (mu' & Hmu' & ->). rewrite E in Hmu'. assert (mu' = mu) as -> by (clear Hs Hs'; destruct (decide (present ns = [])); cbv beta in *; congruence).
    rewrite (present_map _ ns), (present_map _ ns') by done. by rewrite E. }
  rewrite EP in Hs'. assert (sd' = sd) as ->. { case_decide; [congruence|]. destruct Hs as (v & Hv & ->), Hs' as (v' & Hv' & ->). f_equal. simpl in *. congruence. }
  by rewrite !list_lookup_fmap, ED.
Qed.
Lemma count_present (Q : num -> Prop) `{!forall n, Decision (Q n)} ns : ~ Q NaN -> filter Q ns = filter Q (present ns).
Proof.
  intros HQ. unfold present. induction ns as [|n ns IH]; [done|]. destruct (decide (n = NaN)) as [->|Hn].
  - rewrite (filter_cons_False Q) by done. rewrite (filter_cons_False _ NaN ns) by (intros K; by apply K). done.
  - rewrite (filter_cons_True (fun m => m <> NaN) n ns) by done. rewrite !(filter_cons Q n). case_decide; by rewrite IH.
Qed.
Lemma present_ranked : by_present ranked.
Proof.
  intros ns ns' ms ms' i i' n E H H' Hn Hn'. destruct (proj2 H i n Hn) as (m & Hm & _), (proj2 H' i' n Hn') as (m' & Hm' & _). rewrite Hm, Hm'. f_equal.
  destruct (decide (n = NaN)) as [->|Hnn]; [by rewrite (ranked_nan _ _ _ _ H Hn Hm), (ranked_nan _ _ _ _ H' Hn' Hm')|].
  destruct (decide (length (present ns) = 1)) as [H1|H1].
  { rewrite (ranked_one _ _ _ _ _ H H1 Hn Hnn Hm). rewrite <-E in H1. by rewrite (ranked_one _ _ _ _ _ H' H1 Hn' Hnn Hm'). }
  destruct (ranked_many _ _ _ _ _ H H1 Hn Hnn Hm) as (q1 & -> & E1 & Hd & _). rewrite <-E in H1.
  destruct (ranked_many _ _ _ _ _ H' H1 Hn' Hnn Hm') as (q2 & -> & E2 & _).
  assert (C1 : count_lt n ns' = count_lt n ns). { unfold count_lt. rewrite (count_present (fun m => num_lt m n) ns), (count_present (fun m => num_lt m n) ns') by (destruct n; simpl; tauto). by rewrite E. }
  assert (C2 : count_eq n ns' = count_eq n ns). { unfold count_eq. rewrite (count_present (fun m => m = n) ns), (count_present (fun m => m = n) ns') by congruence. by rewrite E. }
  rewrite E, C1, C2 in E2. f_equal. by eapply scaled_eq.
Qed.
Theorem thin_std root d y y' a ax : valid y -> nonempty y -> arithmetic (ldtype y) -> valid y' -> nonempty y' -> arithmetic (ldtype y') ->
  axis_is y a ax -> thinned ax y y' ->
  exists b b', larry_std root y (Some a) d = Ok b /\ larry_std root y' (Some a) d = Ok b' /\ same_numbers_out (delete ax (llabel y)) b b'.
Proof.
  intros Hv Hne Ha Hv' Hne' Ha' Hax HT. pose proof (thin_axis ax y y' a HT Hax) as Hax'.
  destruct (C33_std root y (Some a) d) as (b & Eb & Rb); try done; [by exists ax|].
  destruct (C33_std root y' (Some a) d) as (b' & Eb' & Rb'); try done; [by exists ax|].
  exists b, b'. split; [done|]. split; [done|]. intros ls Hg. destruct (lookup_lt_is_Some_2 (llabel y) ax) as (l & Hl); [by destruct Hax|].
  destruct (lookup_lt_is_Some_2 (llabel y') ax) as (l' & Hl'); [by destruct Hax'|].
  destruct (lane_total y ax l ls) as [vs Hvs]; try done. pose proof Hg as Hg'. rewrite <-(thin_delete ax y y' HT) in Hg'. destruct (lane_total y' ax l' ls) as [vs' Hvs']; try done.
  destruct (reduction_by_at _ y a ax b ls vs Hax Rb Hg Hvs) as (v & Hvb & m & Hr & ->). destruct (reduction_by_at _ y' a ax b' ls vs' Hax' Rb' Hg' Hvs') as (v' & Hvb' & m' & Hr' & ->).
  destruct Hr as (ns & m1 & Hns & [= <-] & HR), Hr' as (ns' & m1' & Hns' & [= <-] & HR').
  assert (E : present ns' = present ns) by (by eapply thin_lane). eexists _, _, (root m). split_and!; try done. simpl. do 2 f_equal.
  rewrite E in HR'. case_decide; [congruence|]. simpl in *. congruence.
Qed.
Theorem thin_ranking ndtri y y' a ax : valid y -> numeric_larry y -> valid y' -> numeric_larry y' ->
  axis_is y a ax -> thinned ax y y' ->
  exists z z', larry_ranking ndtri y (Some a) NormOne = Ok z /\ larry_ranking ndtri y' (Some a) NormOne = Ok z' /\ same_where_kept z z'.
Proof.
  intros Hv Hn Hv' Hn' Hax HT. pose proof (thin_axis ax y y' a HT Hax) as Hax'.
  destruct (C41_succeeds ndtri y (Some a) NormOne) as (z & Ez); try done; [by exists ax|]. destruct (C41_succeeds ndtri y' (Some a) NormOne) as (z' & Ez'); try done; [by exists ax|].
  exists z, z'. split; [done|]. split; [done|].
  exact (thin_lanes _ y y' a ax z z' present_ranked Hax HT (C41_ranks _ _ _ _ Hv Ez) (C41_ranks _ _ _ _ Hv' Ez')).
Qed.
Theorem thin_demean y y' a ax : valid y -> numeric_larry y -> valid y' -> numeric_larry y' -> axis_is y a ax -> thinned ax y y' ->
  exists z z', larry_demean y (Some a) = Ok z /\ larry_demean y' (Some a) = Ok z' /\ same_where_kept z z'.
Proof.
  intros Hv Hn Hv' Hn' Hax HT. pose proof (thin_axis ax y y' a HT Hax) as Hax'.
  destruct (C56_demean y (Some a)) as (z & Ez & H); try done; [by exists ax|]. destruct (C56_demean y' (Some a)) as (z' & Ez' & H'); try done; [by exists ax|].
  exists z, z'. split; [done|]. split; [done|]. refine (thin_lanes _ y y' a ax z z' (present_centred _ _) Hax HT H H'). congruence.
Qed.
Theorem thin_demedian y y' a ax : valid y -> numeric_larry y -> valid y' -> numeric_larry y' -> axis_is y a ax -> thinned ax y y' ->
  exists z z', larry_demedian y (Some a) = Ok z /\ larry_demedian y' (Some a) = Ok z' /\ same_where_kept z z'.
Proof.
  intros Hv Hn Hv' Hn' Hax HT. pose proof (thin_axis ax y y' a HT Hax) as Hax'.
  destruct (C56_demedian y (Some a)) as (z & Ez & H); try done; [by exists ax|]. destruct (C56_demedian y' (Some a)) as (z' & Ez' & H'); try done; [by exists ax|].
  exists z, z'. split; [done|]. split; [done|]. refine (thin_lanes _ y y' a ax z z' (present_centred _ _) Hax HT H H'). exact median_of_fun.
Qed.
Theorem thin_zscore root y y' a ax : valid y -> numeric_larry y -> valid y' -> numeric_larry y' -> axis_is y a ax -> thinned ax y y' ->
  exists z z', larry_zscore root y (Some a) = Ok z /\ larry_zscore root y' (Some a) = Ok z' /\ same_where_kept z z'.
Proof.
  intros Hv Hn Hv' Hn' Hax HT. pose proof (thin_axis ax y y' a HT Hax) as Hax'.
  destruct (C64_zscore root y (Some a)) as (z & Ez & H); try done; [by exists ax|]. destruct (C64_zscore root y' (Some a)) as (z' & Ez' & H'); try done; [by exists ax|].
  exists z, z'. split; [done|]. split; [done|]. exact (thin_lanes _ y y' a ax z z' (present_zscored root) Hax HT H H').
Qed.
Theorem thin_reduce_ops op y y' a ax : op = RSum \/ op = RMean \/ op = RMedian \/ op = RMin \/ op = RMax \/ (exists d, op = RVar d) ->
  valid y -> nonempty y -> arithmetic (ldtype y) -> valid y' -> nonempty y' -> arithmetic (ldtype y') -> axis_is y a ax -> thinned ax y y' ->
  exists b b', larry_reduce op y (Some a) = Ok b /\ larry_reduce op y' (Some a) = Ok b' /\ same_numbers_out (delete ax (llabel y)) b b'.
Proof. intros Hop. apply thin_reduce. unfold counts_present, spans. tauto. Qed.
