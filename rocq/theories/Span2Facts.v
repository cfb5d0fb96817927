(** C108: the moving standard deviation and the moving rank with the whole lane
    as window, and the last running product. *)
From Verif Require Import NumFacts RankLarry MoveFacts SummaryFacts TwiceFacts LaneFacts SpecFacts StepsFacts MovingFacts FarrayFacts ReorderFacts RefineOut LarryFacts PropsLarry PropsNumeric PropsFarray PropsMove PropsMoving.
From Verif Require Import Numeric.
From Verif Require Import BoundsFacts Bounds2Facts MonoFacts Mono2Facts SpanFacts.

Lemma reduction_by_at (R : list val -> val -> Prop) y a ax b ls vs : axis_is y a ax -> reduction_by R y (Some a) b -> in_grid (delete ax (llabel y)) ls -> lane_of y ax ls vs ->
  exists v, at_out b ls v /\ R vs v.
Proof.
  intros Hax (ax' & Hax' & H1 & H2) Hg Hvs. assert (ax' = ax) as -> by (by eapply axis_is_fun). destruct (decide (length (llabel y) = 1)) as [E|E].
  - destruct (H1 E) as (vs' & v & -> & Hl & Hr). assert (ls = []) as ->.
    { apply nil_length_inv. rewrite (Forall2_length _ _ _ Hg), length_delete by (apply lookup_lt_is_Some; apply Hax). lia. }
    assert (vs' = vs) as -> by (by eapply lane_fun). by exists v.
  - assert (1 < length (llabel y)) as E'. { destruct Hax as [? _]. lia. }
    destruct (H2 E') as (z & -> & Vz & Lz & HC). rewrite <-Lz in Hg. destruct (HC ls Hg) as (vs' & v & Hl & Hc & Hr).
    assert (vs' = vs) as -> by (by eapply lane_fun). by exists v.
Qed.
Definition at_last_by (R : list num -> num -> Prop) (Q : list num -> list num -> Prop) (n : nat) : Prop :=
  forall ns ms, length ns = n -> Q ns ms -> length ms = n /\
    forall k m, ms !! k = Some m -> (S k < n -> m = NaN) /\ (S k = n -> R ns m).
Lemma last_moving_by (P : list num -> num -> Prop) n : 1 <= n -> at_last_by P (moving_by P n) n.
Proof.
  intros Hn ns ms Hl [Hm H]. split; [lia|]. intros k m Hk. assert (k < length ns) as Hlt by (rewrite <-Hm; by eapply lookup_lt_Some).
  destruct (H k Hlt) as (m' & Hm' & H'). assert (m' = m) as -> by congruence. split; intros Hs.
  - by rewrite decide_True in H' by lia.
  - rewrite decide_False in H' by lia. destruct H' as [H' _]. replace (k + 1 - n) with 0 in H' by lia. specialize (H' no_infinity_nil).
    by rewrite whole_window in H'.
Qed.
Lemma last_moved_by (P : list num -> num -> Prop) n : 1 <= n -> at_last_by P (moved_by P n) n.
Proof.
  intros Hn ns ms Hl [Hm H]. split; [lia|]. intros k m Hk. assert (k < length ns) as Hlt by (rewrite <-Hm; by eapply lookup_lt_Some).
  destruct (H k Hlt) as (m' & Hm' & H'). assert (m' = m) as -> by congruence. split; intros Hs.
  - by rewrite decide_True in H' by lia.
  - rewrite decide_False in H' by lia. by rewrite whole_window in H'.
Qed.
Lemma span_last_by (R : list num -> num -> Prop) (Rv : list val -> val -> Prop) Q y a ax l z b : (forall ns m m', R ns m -> R ns m' -> m = m') ->
  (forall vs v, Rv vs v -> exists ns m, numbers vs ns /\ to_num v = Some m /\ R ns m) -> at_last_by R Q (length l) -> axis_is y a ax -> llabel y !! ax = Some l ->
  lanes_related Q y (Some a) z -> reduction_by Rv y (Some a) b -> last_only y ax z b.
Proof.
  intros HF HRv HQ Hax Hl (Vz & Dz & Lz & ax' & Hax' & HL) Hb. assert (ax' = ax) as -> by (by eapply axis_is_fun).
  split_and!; try done. exists l. split; [done|]. intros ls i x Hg Hx. destruct (HL ls Hg) as (vs & ns & ms & Hvs & Hns & Hms & HR).
  destruct Hvs as (l1 & Hl1 & Fvs). assert (l1 = l) as -> by congruence.
  assert (Hlen : length ns = length l). { rewrite <-(Forall2_length _ _ _ Hns). symmetry. by eapply Forall2_length. }
  destruct (HQ ns ms Hlen HR) as [Hlm HK]. destruct Hms as (l2 & Hl2 & Fms). assert (l2 = l) as -> by congruence.
  destruct (Forall2_lookup_l _ _ _ _ _ Fms Hx) as (w & Hw & Hc). rewrite list_lookup_fmap, fmap_Some in Hw. destruct Hw as (n & Hn & ->).
  exists n. split; [done|]. destruct (HK i n Hn) as [K1 K2]. split; [done|]. intros Hi. specialize (K2 Hi).
  destruct (reduction_by_at Rv y a ax b ls vs Hax Hb Hg) as (v & Hv & Hr); [by exists l|].
  destruct (HRv vs v Hr) as (ns' & m & Hns' & Hm & HR'). assert (ns' = ns) as -> by (by eapply numbers_unique).
  exists v. split; [done|]. rewrite Hm. f_equal. by eapply HF.
Qed.
Lemma std_fun root ns m m' : std_or_nan root ns m -> std_or_nan root ns m' -> m = m'.
Proof.
  intros (v & Hv & ->) (v' & Hv' & ->). f_equal. unfold reduced_or_nan in *. case_decide; [congruence|]. simpl in *. congruence.
Qed.
Theorem window_whole_std root y a ax l : root NaN = NaN -> valid y -> nonempty y -> numeric_larry y -> axis_is y a ax -> llabel y !! ax = Some l ->
  exists z b, larry_move (MStd root) y (Z.of_nat (length l)) (Some a) = Ok z /\ larry_std root y (Some a) 0 = Ok b /\ last_only y ax z b.
Proof.
  intros Hr Hv Hne Hn Hax Hl. assert (Hlen : 1 <= length l). { unfold nonempty in Hne. eapply Forall_lookup_1 in Hne; [|done]. destruct l; [done|]. simpl. lia. }
  assert (Ha : arithmetic (ldtype y)) by (destruct Hn as [-> | ->]; unfold arithmetic; tauto).
  destruct (larry_std_total root y (Some a) 0) as (b & Eb & Rb); try done; [by exists ax|].
  destruct (C82_std_partial root y (Z.of_nat (length l)) a ax l) as (z & Ez & HL); try done; [lia|]. rewrite Nat2Z.id in HL.
  exists z, b. split_and!; try done. eapply (span_last_by (std_or_nan root)); [apply std_fun| |by apply last_moving_by|done..].
  intros vs v (m & (ns & m' & Hns & [= <-] & HR) & ->). exists ns, (root m). split_and!; try done. by exists m.
Qed.
Lemma last_ranked_fun ns m m' : last_ranked ns m -> last_ranked ns m' -> m = m'.
Proof.
  intros (n & Hn & H) (n' & Hn' & H'). assert (n' = n) as -> by congruence. cbv zeta in H, H'. destruct (is_finite n); [|congruence].
  destruct H as [H1 H2], H' as [H1' H2']. destruct (decide (length (filter (fun n => is_finite n = true) ns) = 1)) as [E|E].
  - rewrite H1, H1' by done. done.
  - destruct (H2 E) as (q & -> & Hq), (H2' E) as (q' & -> & Hq'). f_equal.
    rewrite <-Hq' in Hq. set (c := (Z.of_nat (length (filter (fun n => is_finite n = true) ns)) - 1)%Z) in *.
    assert (Hc : Qc_of_Z c <> 0%Qc) by (apply Qc_of_Z_neq0; unfold c; lia).
    assert (K : ((q - q') * Qc_of_Z c = 0)%Qc). { transitivity ((q + 1) * Qc_of_Z c - (q' + 1) * Qc_of_Z c)%Qc; [ring|]. rewrite Hq. ring. }
    apply Qcmult_integral in K as [K|K]; [|done]. transitivity (q - q' + q')%Qc; [ring|]. rewrite K. ring.
Qed.
Theorem window_whole_ranking layout method y a ax l : good_layout layout -> valid y -> nonempty y -> numeric_larry y -> axis_is y a ax -> llabel y !! ax = Some l ->
  method = MLoop \/ method = MStrides /\ length (llabel y) <= 3 ->
  exists z b, larry_move_ranking layout y (Z.of_nat (length l)) (Some a) method = Ok z /\ larry_lastrank y a = Ok b /\ last_only y ax z b.
Proof.
  intros HG Hv Hne Hn Hax Hl HM. assert (Hlen : 1 <= length l). { unfold nonempty in Hne. eapply Forall_lookup_1 in Hne; [|done]. destruct l; [done|]. simpl. lia. }
  destruct (C42_lastrank_value y a ax) as (b & Eb & Rb); try done.
  destruct (C40_ranking layout y (Z.of_nat (length l)) a ax l method) as (z & Ez & HL); try done; [lia|]. rewrite Nat2Z.id in HL.
  exists z, b. split_and!; try done. eapply (span_last_by last_ranked); [apply last_ranked_fun| |by apply last_moved_by|done..].
  intros vs v (ns & m & Hns & -> & HR). by exists ns, m.
Qed.
(** The last running product. *)
Theorem cumprod_last y a ax z b : valid y -> nonempty y -> axis_is y a ax -> ldtype y = DFloat \/ arithmetic (ldtype y) /\ length (llabel y) = 1 ->
  larry_cum CProd y (Some a) = Ok z -> larry_prod y (Some a) = Ok b -> ends_in y ax z b.
Proof.
  intros Hv Hne Hax Hd Hz Hb. destruct (C32_cum _ _ _ _ Hv Hz) as (a' & ax' & [= <-] & Hax' & Ha & Vz & Lz & HC). assert (ax' = ax) as -> by (by eapply axis_is_fun).
  destruct (C33_prod_partial y (Some a)) as (b' & Eb & Rb); try done; [by exists ax|tauto|]. assert (b' = b) as -> by congruence.
  destruct (lookup_lt_is_Some_2 (llabel y) ax) as (l & Hl); [by destruct Hax|].
  split_and!; try done. exists l. split; [done|]. intros ls x Hg Hx. pose proof (last_Some_elem_of _ _ Hx) as Hin.
  assert (Hls : ax <= length ls). { rewrite (Forall2_length _ _ _ Hg), length_delete by eauto. destruct Hax as [? _]. lia. }
  destruct (HC (with_label ax x ls)) as (vs & k & v & (Hvs & l1 & x1 & Hl1 & Hx1 & Hk) & Hc & ns & n & m & Hns & Hn & Hm & HA). { by eapply with_label_grid. }
  assert (l1 = l) as -> by congruence. rewrite delete_with_label in Hvs by done. rewrite FarrayFacts.with_label_lookup in Hx1 by done. assert (x1 = x) as -> by congruence.
  assert (HN : NoDup l). { apply valid_nodup in Hv. by eapply Forall_lookup_1 in Hv. }
  rewrite last_lookup in Hx. assert (k = pred (length l)) as -> by (by eapply NoDup_lookup).
  destruct (reduction_by_at (reduces RProd) y a ax b ls vs Hax Rb Hg Hvs) as (u & Hu & Hr).
  destruct Hvs as (l1 & Hl1' & Fvs). assert (l1 = l) as -> by congruence. destruct (Forall2_lookup_l _ _ _ _ _ Fvs Hx) as (e & He & Hce).
  destruct (Forall2_lookup_l _ _ _ _ _ Hns He) as (n' & Hn' & Hte). assert (n' = n) as -> by congruence.
  assert (Hlen : length ns = length l). { rewrite <-(Forall2_length _ _ _ Hns). symmetry. by eapply Forall2_length. }
  eexists e, v, n, _. split_and!; try done.
  - intros E. by rewrite HA, decide_True.
  - intros Hnn. rewrite decide_False in HA by done. exists u. split; [done|]. destruct Hr as (ns' & m' & Hns' & Hum & HR). assert (ns' = ns) as -> by (by eapply numbers_unique).
    rewrite take_ge in HA by (apply lookup_lt_Some in Hx; lia). rewrite decide_False in HR; [by rewrite Hum, HR, HA|].
    intros E. assert (Hel : n ∈ present ns). { apply elem_of_list_filter. split; [done|]. by eapply elem_of_list_lookup_2. } rewrite E in Hel. by apply elem_of_nil in Hel.
Qed.
