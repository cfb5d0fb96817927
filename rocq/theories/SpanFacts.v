(** C108: windows as wide as the data, windows of one element, and the last
    running total. *)
From Verif Require Import NumFacts RankLarry MoveFacts SummaryFacts TwiceFacts LaneFacts SpecFacts StepsFacts MovingFacts FarrayFacts ReorderFacts RefineOut LarryFacts PropsLarry PropsNumeric PropsMove PropsMoving.
From Verif Require Import Numeric.
From Verif Require Import BoundsFacts Bounds2Facts MonoFacts Mono2Facts.
From Verif Require Export SpecSpan.

Definition spans (op : red_op) : Prop := op = RSum \/ op = RMean \/ op = RMedian \/ op = RMin \/ op = RMax.
Local Instance num_le_anti : AntiSymm (=) num_le.
Proof. exact num_le_antisym. Qed.
Lemma reduced_fun op l m m' : spans op -> reduced op l m -> reduced op l m' -> m = m'.
Proof.
  intros [->|[->|[->|[->| ->]]]]; simpl.
  - congruence.
  - congruence.
  - intros (s & P & S & H) (s' & P' & S' & H').
    assert (s' = s) as ->. { apply (StronglySorted_unique num_le); [done..|]. by rewrite P, P'. }
    case_decide; [congruence|]. destruct H as (a & b & Ha & Hb & ->), H' as (a' & b' & Ha' & Hb' & ->). congruence.
  - intros [H1 H2] [H1' H2']. apply num_le_antisym; auto.
  - intros [H1 H2] [H1' H2']. apply num_le_antisym; auto.
Qed.
Lemma reduced_or_nan_fun op l m m' : spans op -> reduced_or_nan op l m -> reduced_or_nan op l m' -> m = m'.
Proof. intros Hs. unfold reduced_or_nan. case_decide; [congruence|]. by apply reduced_fun. Qed.
Lemma spans_reduces op vs v : spans op -> reduces op vs v -> exists ns m, numbers vs ns /\ to_num v = Some m /\ reduced_or_nan op ns m.
Proof. by intros [->|[->|[->|[->| ->]]]]. Qed.

(** What a moving statistic gives on a lane with the whole lane as window. *)
Definition at_last (op : red_op) (Q : list num -> list num -> Prop) (n : nat) : Prop :=
  forall ns ms, length ns = n -> Q ns ms -> length ms = n /\
    forall k m, ms !! k = Some m -> (S k < n -> m = NaN) /\ (S k = n -> reduced_or_nan op ns m).
Lemma whole_window {A} n (l : list A) k : length l = n -> S k = n -> window_at n 0 k l = l.
Proof. intros <- Hk. unfold window_at. replace (k + 1 - length l - 0) with 0 by lia. by rewrite drop_0, firstn_all. Qed.
Lemma no_infinity_nil : no_infinity [].
Proof. intros n H. by apply elem_of_nil in H. Qed.
Lemma last_sum n : 1 <= n -> at_last RSum (moving_sum n 0 false) n.
Proof.
  intros Hn ns ms Hl [Hm H]. split; [lia|]. intros k m Hk. assert (k < length ns) as Hlt by (rewrite <-Hm; by eapply lookup_lt_Some).
  specialize (H k Hlt). split; intros Hs.
  - rewrite decide_True in H by lia. congruence.
  - rewrite decide_False in H by lia. destruct H as [H _]. replace (k + 1 - n - 0) with 0 in H by lia. specialize (H no_infinity_nil).
    rewrite whole_window in H by done. unfold window_sum in H. unfold reduced_or_nan. case_decide; simpl; congruence.
Qed.
Lemma last_moving op (P : list num -> num -> Prop) n : (forall ns m, P ns m -> reduced_or_nan op ns m) -> 1 <= n -> at_last op (moving_by P n) n.
Proof.
  intros HP Hn ns ms Hl [Hm H]. split; [lia|]. intros k m Hk. assert (k < length ns) as Hlt by (rewrite <-Hm; by eapply lookup_lt_Some).
  destruct (H k Hlt) as (m' & Hm' & H'). assert (m' = m) as -> by congruence. split; intros Hs.
  - by rewrite decide_True in H' by lia.
  - rewrite decide_False in H' by lia. destruct H' as [H' _]. replace (k + 1 - n) with 0 in H' by lia. specialize (H' no_infinity_nil).
    rewrite whole_window in H' by done. auto.
Qed.
Lemma last_moved op (P : list num -> num -> Prop) n : (forall ns m, P ns m -> reduced_or_nan op ns m) -> 1 <= n -> at_last op (moved_by P n) n.
Proof.
  intros HP Hn ns ms Hl [Hm H]. split; [lia|]. intros k m Hk. assert (k < length ns) as Hlt by (rewrite <-Hm; by eapply lookup_lt_Some).
  destruct (H k Hlt) as (m' & Hm' & H'). assert (m' = m) as -> by congruence. split; intros Hs.
  - by rewrite decide_True in H' by lia.
  - rewrite decide_False in H' by lia. rewrite whole_window in H' by done. auto.
Qed.
(** The element of a reduction. *)
Lemma reduction_at op y a ax b ls vs : axis_is y a ax -> reduction_of op y (Some a) b -> in_grid (delete ax (llabel y)) ls -> lane_of y ax ls vs ->
  exists v, at_out b ls v /\ reduces op vs v.
Proof.
  intros Hax (ax' & Hax' & H1 & H2) Hg Hvs. assert (ax' = ax) as -> by (by eapply axis_is_fun). destruct (decide (length (llabel y) = 1)) as [E|E].
  - destruct (H1 E) as (vs' & v & -> & Hl & Hr). assert (ls = []) as ->.
    { apply nil_length_inv. rewrite (Forall2_length _ _ _ Hg), length_delete by (apply lookup_lt_is_Some; apply Hax). lia. }
    assert (vs' = vs) as -> by (by eapply lane_fun). by exists v.
  - assert (1 < length (llabel y)) as E'. { destruct Hax as [? _]. lia. }
    destruct (H2 E') as (z & -> & Vz & Lz & HC). rewrite <-Lz in Hg. destruct (HC ls Hg) as (vs' & v & Hl & Hc & Hr).
    assert (vs' = vs) as -> by (by eapply lane_fun). by exists v.
Qed.
Lemma span_last op Q y a ax l z b : spans op -> at_last op Q (length l) -> axis_is y a ax -> llabel y !! ax = Some l ->
  lanes_related Q y (Some a) z -> reduction_of op y (Some a) b -> last_only y ax z b.
Proof.
  intros Hop HQ Hax Hl (Vz & Dz & Lz & ax' & Hax' & HL) Hb. assert (ax' = ax) as -> by (by eapply axis_is_fun).
  split_and!; try done. exists l. split; [done|]. intros ls i x Hg Hx. destruct (HL ls Hg) as (vs & ns & ms & Hvs & Hns & Hms & HR).
  destruct Hvs as (l1 & Hl1 & Fvs). assert (l1 = l) as -> by congruence.
  assert (Hlen : length ns = length l). { rewrite <-(Forall2_length _ _ _ Hns). symmetry. by eapply Forall2_length. }
  destruct (HQ ns ms Hlen HR) as [Hlm HK]. destruct Hms as (l2 & Hl2 & Fms). assert (l2 = l) as -> by congruence.
  destruct (Forall2_lookup_l _ _ _ _ _ Fms Hx) as (w & Hw & Hc). rewrite list_lookup_fmap, fmap_Some in Hw. destruct Hw as (n & Hn & ->).
  exists n. split; [done|]. destruct (HK i n Hn) as [K1 K2]. split; [done|]. intros Hi. specialize (K2 Hi).
  destruct (reduction_at op y a ax b ls vs Hax Hb Hg) as (v & Hv & Hr); [by exists l|].
  destruct (spans_reduces op vs v Hop Hr) as (ns' & m & Hns' & Hm & HR'). assert (ns' = ns) as -> by (by eapply numbers_unique).
  exists v. split; [done|]. rewrite Hm. f_equal. by eapply reduced_or_nan_fun.
Qed.

(** Windows of one element. *)
Definition one_by_one (Q : list num -> list num -> Prop) (ns : list num) : Prop := forall ms, Q ns ms -> ms = ns.
Lemma window_one {A} k (l : list A) x : l !! k = Some x -> window_at 1 0 k l = [x].
Proof. intros H. unfold window_at. replace (k + 1 - 1 - 0) with k by lia. by rewrite (drop_S _ _ _ H). Qed.
Lemma reduced_one op n m : spans op -> reduced_or_nan op [n] m -> m = n.
Proof.
  intros Hop. unfold reduced_or_nan, present. rewrite filter_cons, filter_nil. destruct (decide (n <> NaN)) as [Hn|Hn].
  - rewrite decide_False by done.
    assert (E : num_total [n] = n). { cbn [num_total foldr]. apply num_add_0_r. }
    destruct Hop as [->|[->|[->|[->| ->]]]]; cbn [reduced].
    + by rewrite E.
    + intros ->. unfold mean_of. rewrite E. destruct n as [q| | |]; try done. unfold num_of_nat, num_of_Z, num_div. rewrite decide_False by done. f_equal. assert (E1 : Qc_of_Z (Z.of_nat (length [Fin q])) = 1%Qc) by (by apply Qc_is_canon). rewrite E1. field. done.
    + intros (s & P & _ & H). symmetry in P. apply Permutation_length_1_inv in P as ->. simpl in H. congruence.
    + intros [H _]. by apply elem_of_list_singleton in H.
    + intros [H _]. by apply elem_of_list_singleton in H.
  - rewrite decide_True by done. intros ->. symmetry. by apply dec_stable.
Qed.
Lemma same_numbers (ns ms : list num) : length ms = length ns -> (forall k n, ns !! k = Some n -> ms !! k = Some n) -> ms = ns.
Proof. intros Hl H. apply list_eq_same_length with (length ns); try done. intros i x y Hi Hx Hy. apply H in Hy. congruence. Qed.
Lemma no_infinity_take k ns : no_infinity ns -> no_infinity (take k ns).
Proof. intros Hi n (i & Hn & _)%elem_of_take. apply Hi. by eapply elem_of_list_lookup_2. Qed.
Lemma one_sum ns : no_infinity ns -> one_by_one (moving_sum 1 0 false) ns.
Proof.
  intros Hi ms [Hl H]. apply same_numbers; [done|]. intros k n Hn. assert (Hk : k < length ns) by (by eapply lookup_lt_Some).
  specialize (H k Hk). rewrite decide_False in H by lia. destruct H as [H _]. rewrite H by (by apply no_infinity_take).
  f_equal. rewrite (window_one _ _ _ Hn). apply (reduced_one RSum); [by left|]. unfold reduced_or_nan, window_sum. case_decide; done.
Qed.
Lemma one_moving op (P : list num -> num -> Prop) ns : spans op -> (forall ns m, P ns m -> reduced_or_nan op ns m) -> no_infinity ns -> one_by_one (moving_by P 1) ns.
Proof.
  intros Hop HP Hi ms [Hl H]. apply same_numbers; [done|]. intros k n Hn. assert (Hk : k < length ns) by (by eapply lookup_lt_Some).
  destruct (H k Hk) as (m & Hm & K). rewrite decide_False in K by lia. destruct K as [K _]. rewrite (window_one _ _ _ Hn) in K.
  rewrite Hm. f_equal. apply (reduced_one op); [done|]. apply HP, K. by apply no_infinity_take.
Qed.
Lemma one_moved op (P : list num -> num -> Prop) ns : spans op -> (forall ns m, P ns m -> reduced_or_nan op ns m) -> one_by_one (moved_by P 1) ns.
Proof.
  intros Hop HP ms [Hl H]. apply same_numbers; [done|]. intros k n Hn. assert (Hk : k < length ns) by (by eapply lookup_lt_Some).
  destruct (H k Hk) as (m & Hm & K). rewrite decide_False in K by lia. rewrite (window_one _ _ _ Hn) in K.
  rewrite Hm. f_equal. apply (reduced_one op); [done|]. by apply HP.
Qed.
Lemma quiet_numbers y ax ls vs ns : no_inf y -> lane_of y ax ls vs -> numbers vs ns -> no_infinity ns.
Proof.
  intros Hi Hvs Hns n [k Hk]%elem_of_list_lookup. destruct (Forall2_lookup_r _ _ _ _ _ Hns Hk) as (v & Hv & Hn).
  eapply (lane_quiet y ax ls vs); [done|done| |exact Hn]. by eapply elem_of_list_lookup_2.
Qed.
Lemma span_one Q y a z : valid y -> lanes_related Q y (Some a) z -> (forall ax ls vs ns, lane_of y ax ls vs -> numbers vs ns -> one_by_one Q ns) -> as_floats y z.
Proof.
  intros Hv (Vz & Dz & Lz & ax & Hax & HL) HQ. split_and!; try done. intros ls Hg.
  destruct (lookup_lt_is_Some_2 (llabel y) ax) as (l & Hl); [by destruct Hax|].
  destruct (in_grid_lookup _ _ _ _ Hg Hl) as (x & Ex & Hx).
  destruct (HL (delete ax ls)) as (vs & ns & ms & Hvs & Hns & Hms & HR). { by apply Forall2_delete. }
  pose proof (HQ _ _ _ _ Hvs Hns _ HR) as ->. destruct Hvs as (l1 & Hl1 & Fvs), Hms as (l2 & Hl2 & Fms). assert (l1 = l) as -> by congruence. assert (l2 = l) as -> by congruence.
  apply elem_of_list_lookup in Hx as [i Hx]. destruct (Forall2_lookup_l _ _ _ _ _ Fvs Hx) as (v & Hvi & Hc). destruct (Forall2_lookup_l _ _ _ _ _ Fms Hx) as (w & Hw & Hcw).
  rewrite list_lookup_fmap, fmap_Some in Hw. destruct Hw as (n & Hn & ->). rewrite (with_label_delete _ _ _ Ex) in Hc, Hcw.
  destruct (Forall2_lookup_l _ _ _ _ _ Hns Hvi) as (n' & Hn' & Ht). assert (n' = n) as -> by congruence. eauto.
Qed.

Theorem window_whole mop op y a ax l : moving_version mop op -> valid y -> nonempty y -> numeric_larry y -> axis_is y a ax -> llabel y !! ax = Some l ->
  exists z b, larry_move mop y (Z.of_nat (length l)) (Some a) = Ok z /\ larry_reduce op y (Some a) = Ok b /\ last_only y ax z b.
Proof.
  intros Hm Hv Hne Hn Hax Hl. assert (Hlen : 1 <= length l). { unfold nonempty in Hne. eapply Forall_lookup_1 in Hne; [|done]. destruct l; [done|]. simpl. lia. }
  assert (Hop : spans op) by (destruct Hm; unfold spans; tauto). assert (Ha : arithmetic (ldtype y)) by (destruct Hn as [-> | ->]; unfold arithmetic; tauto).
  destruct (C33_reduce_succeeds op y (Some a)) as (b & Eb & Rb); try done; [by exists ax|by destruct Hm|].
  assert (HW : (1 <= Z.of_nat (length l) <= Z.of_nat (length l))%Z) by lia.
  assert (HX : forall Q z, at_last op Q (length l) -> lanes_related Q y (Some a) z -> last_only y ax z b) by (intros Q z HQ HL; by eapply span_last).
  destruct Hm.
  - destruct (C82_sum_partial y _ a ax l Hv Hn Hax Hl HW) as (z & Ez & HL). rewrite Nat2Z.id in HL. exists z, b. split_and!; try done. eapply HX; [|done]. by apply last_sum.
  - destruct (C82_mean_partial y _ a ax l Hv Hn Hax Hl HW) as (z & Ez & HL). rewrite Nat2Z.id in HL. exists z, b. split_and!; try done. eapply HX; [|done]. by apply last_moving.
  - destruct (C82_min y _ a ax l Hv Hn Hax Hl HW) as (z & Ez & HL). rewrite Nat2Z.id in HL. exists z, b. split_and!; try done. eapply HX; [|done]. by apply last_moved.
  - destruct (C82_max y _ a ax l Hv Hn Hax Hl HW) as (z & Ez & HL). rewrite Nat2Z.id in HL. exists z, b. split_and!; try done. eapply HX; [|done]. by apply last_moved.
Qed.
Lemma median_reduced ns m : median_or_nan ns m -> reduced_or_nan RMedian ns m.
Proof. done. Qed.
Theorem window_whole_median layout method y a ax l : good_layout layout -> valid y -> nonempty y -> numeric_larry y -> axis_is y a ax -> llabel y !! ax = Some l ->
  method = MLoop \/ method = MStrides /\ length (llabel y) <= 3 ->
  exists z b, larry_move_median layout y (Z.of_nat (length l)) (Some a) method = Ok z /\ larry_reduce RMedian y (Some a) = Ok b /\ last_only y ax z b.
Proof.
  intros HG Hv Hne Hn Hax Hl HM. assert (Hlen : 1 <= length l). { unfold nonempty in Hne. eapply Forall_lookup_1 in Hne; [|done]. destruct l; [done|]. simpl. lia. }
  assert (Ha : arithmetic (ldtype y)) by (destruct Hn as [-> | ->]; unfold arithmetic; tauto).
  destruct (C33_reduce_succeeds RMedian y (Some a)) as (b & Eb & Rb); try done; [by exists ax|].
  destruct (C40_median layout y (Z.of_nat (length l)) a ax l method) as (z & Ez & HL); try done; [lia|]. rewrite Nat2Z.id in HL.
  exists z, b. split_and!; try done. eapply (span_last RMedian); [unfold spans; tauto| |done..]. apply last_moved; [|done]. exact median_reduced.
Qed.
Theorem window_single mop op y a ax : moving_version mop op -> valid y -> nonempty y -> numeric_larry y -> axis_is y a ax -> mop = MMin \/ mop = MMax \/ no_inf y ->
  exists z, larry_move mop y 1 (Some a) = Ok z /\ as_floats y z.
Proof.
  intros Hm Hv Hne Hn Hax Hi. destruct (lookup_lt_is_Some_2 (llabel y) ax) as (l & Hl); [by destruct Hax|].
  assert (Hlen : 1 <= length l). { unfold nonempty in Hne. eapply Forall_lookup_1 in Hne; [|done]. destruct l; [done|]. simpl. lia. }
  assert (HW : (1 <= 1 <= Z.of_nat (length l))%Z) by lia.
  destruct Hm.
  - destruct (C82_sum_partial y _ a ax l Hv Hn Hax Hl HW) as (z & Ez & HL). exists z. split; [done|]. eapply span_one; [done..|]. intros. apply one_sum. destruct Hi as [?|[?|?]]; [done..|]. by eapply quiet_numbers.
  - destruct (C82_mean_partial y _ a ax l Hv Hn Hax Hl HW) as (z & Ez & HL). exists z. split; [done|]. eapply span_one; [done..|]. intros. apply (one_moving RMean); [unfold spans; tauto|done|]. destruct Hi as [?|[?|?]]; [done..|]. by eapply quiet_numbers.
  - destruct (C82_min y _ a ax l Hv Hn Hax Hl HW) as (z & Ez & HL). exists z. split; [done|]. eapply span_one; [done..|]. intros. apply (one_moved RMin); [unfold spans; tauto|done].
  - destruct (C82_max y _ a ax l Hv Hn Hax Hl HW) as (z & Ez & HL). exists z. split; [done|]. eapply span_one; [done..|]. intros. apply (one_moved RMax); [unfold spans; tauto|done].
Qed.
Theorem window_single_median layout method y a ax : good_layout layout -> valid y -> nonempty y -> numeric_larry y -> axis_is y a ax ->
  method = MLoop \/ method = MStrides /\ length (llabel y) <= 3 -> exists z, larry_move_median layout y 1 (Some a) method = Ok z /\ as_floats y z.
Proof.
  intros HG Hv Hne Hn Hax HM. destruct (lookup_lt_is_Some_2 (llabel y) ax) as (l & Hl); [by destruct Hax|].
  assert (Hlen : 1 <= length l). { unfold nonempty in Hne. eapply Forall_lookup_1 in Hne; [|done]. destruct l; [done|]. simpl. lia. }
  destruct (C40_median layout y 1 a ax l method) as (z & Ez & HL); try done; [lia|]. exists z. split; [done|]. eapply span_one; [done..|]. intros. apply (one_moved RMedian); [unfold spans; tauto|exact median_reduced].
Qed.
(** The last running total. *)
Theorem cumsum_last y a ax z b : valid y -> nonempty y -> axis_is y a ax -> larry_cum CSum y (Some a) = Ok z -> larry_reduce RSum y (Some a) = Ok b -> ends_in y ax z b.
Proof.
  intros Hv Hne Hax Hz Hb. destruct (C32_cum _ _ _ _ Hv Hz) as (a' & ax' & [= <-] & Hax' & Ha & Vz & Lz & HC). assert (ax' = ax) as -> by (by eapply axis_is_fun).
  destruct (C33_reduce_succeeds RSum y (Some a)) as (b' & Eb & Rb); try done; [by exists ax|]. assert (b' = b) as -> by congruence.
  destruct (lookup_lt_is_Some_2 (llabel y) ax) as (l & Hl); [by destruct Hax|].
  split_and!; try done. exists l. split; [done|]. intros ls x Hg Hx. pose proof (last_Some_elem_of _ _ Hx) as Hin.
  assert (Hls : ax <= length ls). { rewrite (Forall2_length _ _ _ Hg), length_delete by eauto. destruct Hax as [? _]. lia. }
  destruct (HC (with_label ax x ls)) as (vs & k & v & (Hvs & l1 & x1 & Hl1 & Hx1 & Hk) & Hc & ns & n & m & Hns & Hn & Hm & HA). { by eapply with_label_grid. }
  assert (l1 = l) as -> by congruence. rewrite delete_with_label in Hvs by done. rewrite FarrayFacts.with_label_lookup in Hx1 by done. assert (x1 = x) as -> by congruence.
  assert (HN : NoDup l). { apply valid_nodup in Hv. by eapply Forall_lookup_1 in Hv. }
  rewrite last_lookup in Hx. assert (k = pred (length l)) as -> by (by eapply NoDup_lookup).
  destruct (reduction_at RSum y a ax b ls vs Hax Rb Hg Hvs) as (u & Hu & Hr).
  destruct Hvs as (l1 & Hl1' & Fvs). assert (l1 = l) as -> by congruence. destruct (Forall2_lookup_l _ _ _ _ _ Fvs Hx) as (e & He & Hce).
  destruct (Forall2_lookup_l _ _ _ _ _ Hns He) as (n' & Hn' & Hte). assert (n' = n) as -> by congruence.
  assert (Hlen : length ns = length l). { rewrite <-(Forall2_length _ _ _ Hns). symmetry. by eapply Forall2_length. }
  eexists e, v, n, _. split_and!; try done.
  - intros E. by rewrite HA, decide_True.
  - intros Hnn. rewrite decide_False in HA by done. exists u. split; [done|]. destruct Hr as (ns' & m' & Hns' & Hum & HR). assert (ns' = ns) as -> by (by eapply numbers_unique).
    rewrite take_ge in HA by (apply lookup_lt_Some in Hx; lia). rewrite decide_False in HR; [by rewrite Hum, HR, HA|].
    intros E. assert (Hel : n ∈ present ns). { apply elem_of_list_filter. split; [done|]. by eapply elem_of_list_lookup_2. } rewrite E in Hel. by apply elem_of_nil in Hel.
Qed.
