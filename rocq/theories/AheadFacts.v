(** C112: moving and running functions do not look ahead. *)
From Verif Require Import NumFacts RankFacts RankLarry MoveFacts SummaryFacts TwiceFacts LaneFacts SpecFacts StepsFacts MovingFacts FarrayFacts ReorderFacts RefineOut LarryFacts PropsLarry PropsNumeric PropsFarray PropsMove PropsMoving.
From Verif Require Import Numeric.
From Verif Require Import Bounds2Facts Mono2Facts SpanFacts Span2Facts.
From Verif Require Export SpecAhead.

Lemma take_less {A} (l l' : list A) k j : take k l' = take k l -> j <= k -> take j l' = take j l.
Proof. intros H Hj. assert (E : forall u : list A, take j u = take j (take k u)) by (intros u; rewrite take_take; f_equal; lia). rewrite (E l'), (E l). by rewrite H. Qed.
Lemma lookup_less {A} (l l' : list A) k j : take k l' = take k l -> j < k -> l' !! j = l !! j.
Proof. intros H Hj. rewrite <-(lookup_take l' k j), <-(lookup_take l k j) by done. by rewrite H. Qed.
Lemma window_less {A} w s i k (l l' : list A) : take k l' = take k l -> w + s <= i + 1 -> i < k -> window_at w s i l' = window_at w s i l.
Proof.
  intros H Hw Hi. unfold window_at. assert (E : forall u : list A, take w (drop (i + 1 - w - s) u) = drop (i + 1 - w - s) (take (i + 1 - w - s + w) u)).
  { intros u. by rewrite take_drop_commute. }
  rewrite !E. by rewrite (take_less l l' k) by (done || lia).
Qed.
(** A relation between lanes that does not look ahead. *)
Definition causal {A} (R : list A -> list num -> Prop) : Prop :=
  forall ns ns' ms ms' k, length ns' = length ns -> take k ns' = take k ns -> R ns ms -> R ns' ms' -> forall i, i < k -> i < length ns -> ms' !! i = ms !! i.
Lemma no_infinity_dec ns : no_infinity ns \/ ~ no_infinity ns.
Proof.
  destruct (decide (Forall (fun n => is_inf n = false) ns)) as [F|F]; [left|right]; [intros n Hn; rewrite Forall_forall in F; auto|].
  intros K. apply F. apply Forall_forall. auto.
Qed.
Lemma causal_sum w s norm : causal (moving_sum w s norm).
Proof.
  intros ns ns' ms ms' k Hl Ht [_ H] [_ H'] i Hi Hn. specialize (H i Hn). specialize (H' i ltac:(lia)). case_decide as E; [congruence|].
  rewrite (window_less w s i k ns ns'), (take_less ns ns' k) in H' by (done || lia). destruct H as [A B], H' as [A' B'].
  destruct (no_infinity_dec (take (i + 1 - w - s) ns)) as [D|D]; [rewrite (A D), (A' D)|rewrite (B D), (B' D)]; done.
Qed.
Lemma causal_moving (P : list num -> num -> Prop) w : (forall l m m', P l m -> P l m' -> m = m') -> causal (moving_by P w).
Proof.
  intros HP ns ns' ms ms' k Hl Ht [_ H] [_ H'] i Hi Hn. destruct (H i Hn) as (m & Em & K). destruct (H' i ltac:(lia)) as (m' & Em' & K'). rewrite Em, Em'. f_equal.
  case_decide as E; [congruence|].
  rewrite (window_less w 0 i k ns ns'), (take_less ns ns' k) in K' by (done || lia). destruct K as [A B], K' as [A' B'].
  destruct (no_infinity_dec (take (i + 1 - w) ns)) as [D|D]; [by eapply HP; auto|]. by rewrite (B D), (B' D).
Qed.
Lemma causal_moved (P : list num -> num -> Prop) w : (forall l m m', P l m -> P l m' -> m = m') -> causal (moved_by P w).
Proof.
  intros HP ns ns' ms ms' k Hl Ht [_ H] [_ H'] i Hi Hn. destruct (H i Hn) as (m & Em & K). destruct (H' i ltac:(lia)) as (m' & Em' & K'). rewrite Em, Em'. f_equal.
  case_decide as E; [congruence|]. rewrite (window_less w 0 i k ns ns') in K' by (done || lia). by eapply HP.
Qed.
Lemma causal_func f w : causal (moved f w).
Proof.
  intros ns ns' ms ms' k Hl Ht [_ H] [_ H'] i Hi Hn. rewrite (H i Hn), (H' i ltac:(lia)). f_equal. case_decide as E; [done|].
  by rewrite (window_less w 0 i k ns ns') by (done || lia).
Qed.

Lemma agree_lane k ax y y' ls vs vs' : agree_before k ax y y' -> in_grid (delete ax (llabel y)) ls -> lane_of y ax ls vs -> lane_of y' ax ls vs' -> length vs' = length vs /\ take k vs' = take k vs.
Proof.
  intros [HL H] Hg (l & Hl & F) (l' & Hl' & F'). rewrite HL in Hl'. assert (l' = l) as -> by congruence.
  pose proof (Forall2_length _ _ _ F) as E. pose proof (Forall2_length _ _ _ F') as E'. split; [lia|]. apply list_eq. intros i. destruct (decide (i < k)) as [Hi|Hi].
  - rewrite !lookup_take by done. destruct (l !! i) as [x|] eqn:Ex.
    + destruct (Forall2_lookup_l _ _ _ _ _ F Ex) as (v & -> & Hv). destruct (Forall2_lookup_l _ _ _ _ _ F' Ex) as (v' & -> & Hv'). rewrite (H l ls i x) in Hv' by done. congruence.
    + apply lookup_ge_None in Ex. rewrite !lookup_ge_None_2; [done|lia..].
  - rewrite !lookup_take_ge by lia. done.
Qed.
Lemma numbers_take vs ns k : numbers vs ns -> numbers (take k vs) (take k ns).
Proof. apply Forall2_take. Qed.
Lemma lanes_ahead (R : list num -> list num -> Prop) k y y' a ax z z' : causal R -> axis_is y a ax -> axis_is y' a ax -> agree_before k ax y y' ->
  lanes_related R y (Some a) z -> lanes_related R y' (Some a) z' -> agree_before k ax z z'.
Proof.
  intros HC Hax Hax' HA (V1 & D1 & L1 & ax1 & X1 & H1) (V2 & D2 & L2 & ax2 & X2 & H2).
  assert (ax1 = ax) as -> by (by eapply axis_is_fun). assert (ax2 = ax) as -> by (by eapply axis_is_fun).
  assert (HL : llabel y' = llabel y) by apply HA. split; [congruence|]. rewrite L1. intros l ls i x Hl Hx Hi Hg.
  destruct (H1 ls Hg) as (vs & ns & ms & Hvs & Hns & (l2 & Hl2 & Fms) & HR). rewrite HL in H2. destruct (H2 ls Hg) as (vs' & ns' & ms' & Hvs' & Hns' & (l4 & Hl4 & Fms') & HR').
  assert (l2 = l) as -> by congruence. assert (l4 = l) as -> by congruence.
  destruct (agree_lane k ax y y' ls vs vs' HA Hg Hvs Hvs') as [E Et].
  pose proof (Forall2_length _ _ _ Hns) as N1. pose proof (Forall2_length _ _ _ Hns') as N2.
  assert (HE : ms' !! i = ms !! i).
  { apply (HC ns ns' ms ms' k); try done; [lia|..].
    - eapply numbers_unique; [apply numbers_take; exact Hns'|]. rewrite Et. by apply numbers_take.
    - destruct Hvs as (l1 & Hl1 & Fvs). assert (l1 = l) as -> by congruence. pose proof (Forall2_length _ _ _ Fvs). apply lookup_lt_Some in Hx. lia. }
  destruct (Forall2_lookup_l _ _ _ _ _ Fms Hx) as (w & Hw & Hc). destruct (Forall2_lookup_l _ _ _ _ _ Fms' Hx) as (w' & Hw' & Hc').
  rewrite list_lookup_fmap, HE in Hw'. rewrite list_lookup_fmap in Hw. congruence.
Qed.
Lemma lanes_to_ahead (R : list val -> list num -> Prop) k y y' a ax z z' : causal R -> axis_is y a ax -> axis_is y' a ax -> agree_before k ax y y' ->
  lanes_to R y a z -> lanes_to R y' a z' -> agree_before k ax z z'.
Proof.
  intros HC Hax Hax' HA (V1 & D1 & L1 & ax1 & X1 & H1) (V2 & D2 & L2 & ax2 & X2 & H2).
  assert (ax1 = ax) as -> by (by eapply axis_is_fun). assert (ax2 = ax) as -> by (by eapply axis_is_fun).
  assert (HL : llabel y' = llabel y) by apply HA. split; [congruence|]. rewrite L1. intros l ls i x Hl Hx Hi Hg.
  destruct (H1 ls Hg) as (vs & ms & Hvs & (l2 & Hl2 & Fms) & HR). rewrite HL in H2. destruct (H2 ls Hg) as (vs' & ms' & Hvs' & (l4 & Hl4 & Fms') & HR').
  assert (l2 = l) as -> by congruence. assert (l4 = l) as -> by congruence.
  destruct (agree_lane k ax y y' ls vs vs' HA Hg Hvs Hvs') as [E Et].
  assert (HE : ms' !! i = ms !! i).
  { apply (HC vs vs' ms ms' k); try done.
    destruct Hvs as (l1 & Hl1 & Fvs). assert (l1 = l) as -> by congruence. pose proof (Forall2_length _ _ _ Fvs). apply lookup_lt_Some in Hx. lia. }
  destruct (Forall2_lookup_l _ _ _ _ _ Fms Hx) as (w & Hw & Hc). destruct (Forall2_lookup_l _ _ _ _ _ Fms' Hx) as (w' & Hw' & Hc').
  rewrite list_lookup_fmap, HE in Hw'. rewrite list_lookup_fmap in Hw. congruence.
Qed.
Lemma ahead_axis k ax y y' a l : agree_before k ax y y' -> axis_is y a ax -> llabel y !! ax = Some l -> axis_is y' a ax /\ llabel y' !! ax = Some l.
Proof. intros [HL _] Hax Hl. unfold axis_is in *. by rewrite HL. Qed.

Theorem ahead_move op y y' w k a ax l : (forall root, op = MStd root -> root NaN = NaN) -> valid y -> numeric_larry y -> valid y' -> numeric_larry y' ->
  axis_is y a ax -> llabel y !! ax = Some l -> (1 <= w <= Z.of_nat (length l))%Z -> agree_before k ax y y' ->
  exists z z', larry_move op y w (Some a) = Ok z /\ larry_move op y' w (Some a) = Ok z' /\ agree_before k ax z z'.
Proof.
  intros Hop Hv Hn Hv' Hn' Hax Hl Hw HA. destruct (ahead_axis _ _ _ _ _ _ HA Hax Hl) as [Hax' Hl'].
  destruct op as [| |root| |].
  - destruct (C82_sum_partial y w a ax l) as (z & Ez & H); try done. destruct (C82_sum_partial y' w a ax l) as (z' & Ez' & H'); try done.
    exists z, z'. split; [done|]. split; [done|]. exact (lanes_ahead _ k y y' a ax z z' (causal_sum _ _ _) Hax Hax' HA H H').
  - destruct (C82_mean_partial y w a ax l) as (z & Ez & H); try done. destruct (C82_mean_partial y' w a ax l) as (z' & Ez' & H'); try done.
    exists z, z'. split; [done|]. split; [done|]. refine (lanes_ahead _ k y y' a ax z z' (causal_moving _ _ _) Hax Hax' HA H H'). intros ? ? ?. apply reduced_or_nan_fun. unfold spans. tauto.
  - destruct (C82_std_partial root y w a ax l) as (z & Ez & H); try done; [by apply Hop|]. destruct (C82_std_partial root y' w a ax l) as (z' & Ez' & H'); try done; [by apply Hop|].
    exists z, z'. split; [done|]. split; [done|]. refine (lanes_ahead _ k y y' a ax z z' (causal_moving _ _ _) Hax Hax' HA H H'). intros ? ? ?. apply std_fun.
  - destruct (C82_min y w a ax l) as (z & Ez & H); try done. destruct (C82_min y' w a ax l) as (z' & Ez' & H'); try done.
    exists z, z'. split; [done|]. split; [done|]. refine (lanes_ahead _ k y y' a ax z z' (causal_moved _ _ _) Hax Hax' HA H H'). intros ? ? ?. apply reduced_or_nan_fun. unfold spans. tauto.
  - destruct (C82_max y w a ax l) as (z & Ez & H); try done. destruct (C82_max y' w a ax l) as (z' & Ez' & H'); try done.
    exists z, z'. split; [done|]. split; [done|]. refine (lanes_ahead _ k y y' a ax z z' (causal_moved _ _ _) Hax Hax' HA H H'). intros ? ? ?. apply reduced_or_nan_fun. unfold spans. tauto.
Qed.
Theorem ahead_movingsum y y' w s norm k a ax l : valid y -> numeric_larry y -> valid y' -> numeric_larry y' ->
  axis_is y a ax -> llabel y !! ax = Some l -> (1 <= w <= Z.of_nat (length l))%Z -> s <= length l -> agree_before k ax y y' ->
  exists x x', np_movingsum (lx y) w s a norm = Ok x /\ np_movingsum (lx y') w s a norm = Ok x' /\ agree_before k ax (Larry x (llabel y)) (Larry x' (llabel y')).
Proof.
  intros Hv Hn Hv' Hn' Hax Hl Hw Hs HA. destruct (ahead_axis _ _ _ _ _ _ HA Hax Hl) as [Hax' Hl'].
  destruct (C39_movingsum_partial y w s a norm ax l) as (x & Ex & H); try done. destruct (C39_movingsum_partial y' w s a norm ax l) as (x' & Ex' & H'); try done.
  exists x, x'. split; [done|]. split; [done|]. exact (lanes_ahead _ k y y' a ax _ _ (causal_sum _ _ _) Hax Hax' HA H H').
Qed.
Theorem ahead_median layout method y y' w k a ax l : good_layout layout -> valid y -> numeric_larry y -> valid y' -> numeric_larry y' ->
  axis_is y a ax -> llabel y !! ax = Some l -> (1 <= w <= Z.of_nat (length l))%Z -> method = MLoop \/ method = MStrides /\ length (llabel y) <= 3 -> agree_before k ax y y' ->
  exists z z', larry_move_median layout y w (Some a) method = Ok z /\ larry_move_median layout y' w (Some a) method = Ok z' /\ agree_before k ax z z'.
Proof.
  intros Hlay Hv Hn Hv' Hn' Hax Hl Hw Hm HA. destruct (ahead_axis _ _ _ _ _ _ HA Hax Hl) as [Hax' Hl']. assert (HL : llabel y' = llabel y) by apply HA.
  destruct (C40_median layout y w a ax l method) as (z & Ez & H); try done. destruct (C40_median layout y' w a ax l method) as (z' & Ez' & H'); try done; [by rewrite HL|].
  exists z, z'. split; [done|]. split; [done|]. refine (lanes_ahead _ k y y' a ax z z' (causal_moved _ _ _) Hax Hax' HA H H').
  intros u m m' K K'. apply (reduced_or_nan_fun RMedian u); [unfold spans; tauto|by apply median_reduced..].
Qed.
Theorem ahead_ranking layout method y y' w k a ax l : good_layout layout -> valid y -> numeric_larry y -> valid y' -> numeric_larry y' ->
  axis_is y a ax -> llabel y !! ax = Some l -> (1 <= w <= Z.of_nat (length l))%Z -> method = MLoop \/ method = MStrides /\ length (llabel y) <= 3 -> agree_before k ax y y' ->
  exists z z', larry_move_ranking layout y w (Some a) method = Ok z /\ larry_move_ranking layout y' w (Some a) method = Ok z' /\ agree_before k ax z z'.
Proof.
  intros Hlay Hv Hn Hv' Hn' Hax Hl Hw Hm HA. destruct (ahead_axis _ _ _ _ _ _ HA Hax Hl) as [Hax' Hl']. assert (HL : llabel y' = llabel y) by apply HA.
  destruct (C40_ranking layout y w a ax l method) as (z & Ez & H); try done. destruct (C40_ranking layout y' w a ax l method) as (z' & Ez' & H'); try done; [by rewrite HL|].
  exists z, z'. split; [done|]. split; [done|]. refine (lanes_ahead _ k y y' a ax z z' (causal_moved _ _ _) Hax Hax' HA H H'). intros ? ? ?. apply last_ranked_fun.
Qed.
Theorem ahead_func layout func kw method y y' w k a ax l : good_layout layout -> valid y -> valid y' ->
  axis_is y a ax -> llabel y !! ax = Some l -> (1 <= w <= Z.of_nat (length l))%Z -> method = MLoop \/ method = MStrides /\ length (llabel y) <= 3 -> agree_before k ax y y' ->
  exists x x', np_move_func layout func (larr y) w (Some a) method kw = Ok x /\ np_move_func layout func (larr y') w (Some a) method kw = Ok x' /\
    agree_before k ax (Larry x (llabel y)) (Larry x' (llabel y')).
Proof.
  intros Hlay Hv Hv' Hax Hl Hw Hm HA. destruct (ahead_axis _ _ _ _ _ _ HA Hax Hl) as [Hax' Hl']. assert (HL : llabel y' = llabel y) by apply HA.
  destruct (C40_windows layout func kw y w a ax l method) as (z & Ez & H); try done. destruct (C40_windows layout func kw y' w a ax l method) as (z' & Ez' & H'); try done; [by rewrite HL|].
  exists z, z'. split; [done|]. split; [done|]. exact (lanes_to_ahead _ k y y' a ax _ _ (causal_func _ _) Hax Hax' HA H H').
Qed.

(** push. *)
Lemma pushed_less n vs vs' k i v v' : take k vs' = take k vs -> i < k -> pushed n vs i v -> pushed n vs' i v' -> v' = v.
Proof.
  intros Ht Hi (u & Hu & H) (u' & Hu' & H'). assert (HL : forall j, j < k -> vs' !! j = vs !! j) by (intros j Hj; by apply (lookup_less vs vs' k)).
  rewrite HL in Hu' by done. assert (u' = u) as -> by congruence.
  destruct H as [[F ->]|[F H]], H' as [[F' ->]|[F' H']]; try done.
  destruct H as [(j & Hj & Hd & Hv & Fv & HN)|[-> HN]], H' as [(j' & Hj' & Hd' & Hv' & Fv' & HN')|[-> HN']]; [| | |done].
  - rewrite HL in Hv' by lia. destruct (decide (j = j')) as [->|Hne]; [congruence|]. exfalso. destruct (decide (j < j')) as [Hlt|Hge].
    + by apply (HN j' v'); [lia|..].
    + apply (HN' j v); [lia| |done]. by rewrite HL by lia.
  - exfalso. apply (HN' j v); try done. by rewrite HL by lia.
  - exfalso. rewrite HL in Hv' by lia. by apply (HN j' v').
Qed.
Lemma in_lane_at y ax ls l i x vs k : valid y -> llabel y !! ax = Some l -> l !! i = Some x -> in_grid (delete ax (llabel y)) ls ->
  in_lane y ax (with_label ax x ls) vs k -> lane_of y ax ls vs /\ k = i.
Proof.
  intros Hv Hl Hx Hg (Hvs & l1 & x1 & Hl1 & Hx1 & Hk). assert (l1 = l) as -> by congruence.
  assert (HN : NoDup l). { apply valid_nodup in Hv. by eapply Forall_lookup_1 in Hv. }
  assert (Hls : ax <= length ls). { rewrite (Forall2_length _ _ _ Hg), length_delete by eauto. apply lookup_lt_Some in Hl. lia. }
  rewrite delete_with_label in Hvs by done. rewrite FarrayFacts.with_label_lookup in Hx1 by done. assert (x1 = x) as -> by congruence.
  split; [done|]. by eapply NoDup_lookup.
Qed.
Theorem ahead_push y y' n k a ax : valid y -> arithmetic (ldtype y) -> valid y' -> arithmetic (ldtype y') -> axis_is y a ax -> agree_before k ax y y' ->
  exists z z', larry_push y n a = Ok z /\ larry_push y' n a = Ok z' /\ agree_before k ax z z'.
Proof.
  intros Hv Ha Hv' Ha' Hax HA. destruct (lookup_lt_is_Some_2 (llabel y) ax) as (l & Hl); [by destruct Hax|].
  destruct (ahead_axis _ _ _ _ _ _ HA Hax Hl) as [Hax' Hl']. assert (HL : llabel y' = llabel y) by apply HA.
  destruct (C37_push y n a ax) as (z & Ez & Vz & Dz & Lz & H); try done. destruct (C37_push y' n a ax) as (z' & Ez' & Vz' & Dz' & Lz' & H'); try done.
  exists z, z'. split; [done|]. split; [done|]. split; [congruence|]. rewrite Lz. intros l1 ls i x Hl1 Hx Hi Hg. assert (l1 = l) as -> by congruence.
  assert (Hgr : in_grid (llabel y) (with_label ax x ls)). { eapply with_label_grid; [done| |done]. by eapply elem_of_list_lookup_2. }
  destruct (H _ Hgr) as (vs & j & v & Hin & Hc & HP). rewrite HL in H'. destruct (H' _ Hgr) as (vs' & j' & v' & Hin' & Hc' & HP').
  destruct (in_lane_at y ax ls l i x vs j) as [Hvs ->]; try done. destruct (in_lane_at y' ax ls l i x vs' j') as [Hvs' ->]; try done; [by rewrite HL|].
  destruct (agree_lane k ax y y' ls vs vs' HA Hg Hvs Hvs') as [_ Et]. rewrite Hc, Hc'. f_equal. by eapply pushed_less.
Qed.
(** cumsum and cumprod. *)
Theorem ahead_cum op y y' k a ax : valid y -> arithmetic (ldtype y) -> valid y' -> arithmetic (ldtype y') -> axis_is y a ax -> agree_before k ax y y' ->
  exists z z', larry_cum op y (Some a) = Ok z /\ larry_cum op y' (Some a) = Ok z' /\ agree_before_num k ax z z'.
Proof.
  intros Hv Ha Hv' Ha' Hax HA. destruct (lookup_lt_is_Some_2 (llabel y) ax) as (l & Hl); [by destruct Hax|].
  destruct (ahead_axis _ _ _ _ _ _ HA Hax Hl) as [Hax' Hl']. assert (HL : llabel y' = llabel y) by apply HA.
  destruct (C32_cum_succeeds op y a ax Hv Ha Hax) as [z Hz]. destruct (C32_cum_succeeds op y' a ax Hv' Ha' Hax') as [z' Hz'].
  exists z, z'. split; [done|]. split; [done|].
  destruct (C32_cum _ _ _ _ Hv Hz) as (a1 & ax1 & [= <-] & X1 & _ & Vz & Lz & H). destruct (C32_cum _ _ _ _ Hv' Hz') as (a2 & ax2 & [= <-] & X2 & _ & Vz' & Lz' & H').
  assert (ax1 = ax) as -> by (by eapply axis_is_fun). assert (ax2 = ax) as -> by (by eapply axis_is_fun).
  split; [congruence|]. rewrite Lz. intros l1 ls i x Hl1 Hx Hi Hg. assert (l1 = l) as -> by congruence.
  assert (Hgr : in_grid (llabel y) (with_label ax x ls)). { eapply with_label_grid; [done| |done]. by eapply elem_of_list_lookup_2. }
  destruct (H _ Hgr) as (vs & j & v & Hin & Hc & HP). rewrite HL in H'. destruct (H' _ Hgr) as (vs' & j' & v' & Hin' & Hc' & HP').
  destruct (in_lane_at y ax ls l i x vs j) as [Hvs ->]; try done. destruct (in_lane_at y' ax ls l i x vs' j') as [Hvs' ->]; try done; [by rewrite HL|].
  destruct (agree_lane k ax y y' ls vs vs' HA Hg Hvs Hvs') as [_ Et].
  destruct HP as (ns & n & m & Hns & Hn & Hm & Em), HP' as (ns' & n' & m' & Hns' & Hn' & Hm' & Em').
  assert (ET : take k ns' = take k ns). { eapply numbers_unique; [apply numbers_take; exact Hns'|]. rewrite Et. by apply numbers_take. }
  rewrite (lookup_less ns ns' k) in Hn' by done. assert (n' = n) as -> by congruence.
  assert (m' = m) as ->. { rewrite (take_less ns ns' k) in Em' by (done || lia). destruct op; congruence. }
  by exists v, v', m.
Qed.

(** Moving sums forward do not look back. *)
Lemma agree_from_lane k ax y y' ls vs vs' : agree_from k ax y y' -> in_grid (delete ax (llabel y)) ls -> lane_of y ax ls vs -> lane_of y' ax ls vs' -> length vs' = length vs /\ drop k vs' = drop k vs.
Proof.
  intros [HL H] Hg (l & Hl & F) (l' & Hl' & F'). rewrite HL in Hl'. assert (l' = l) as -> by congruence.
  pose proof (Forall2_length _ _ _ F) as E. pose proof (Forall2_length _ _ _ F') as E'. split; [lia|]. apply list_eq. intros i. rewrite !lookup_drop.
  destruct (l !! (k + i)) as [x|] eqn:Ex.
  - destruct (Forall2_lookup_l _ _ _ _ _ F Ex) as (v & -> & Hv). destruct (Forall2_lookup_l _ _ _ _ _ F' Ex) as (v' & -> & Hv'). rewrite (H l ls (k + i) x) in Hv' by (done || lia). congruence.
  - apply lookup_ge_None in Ex. rewrite !lookup_ge_None_2; [done|lia..].
Qed.
Lemma causal_back (R : list num -> list num -> Prop) ns ns' ms ms' k i : causal R -> length ns' = length ns -> length ms = length ns -> length ms' = length ns -> drop k ns' = drop k ns ->
  R (reverse ns) (reverse ms) -> R (reverse ns') (reverse ms') -> k <= i -> i < length ns -> ms' !! i = ms !! i.
Proof.
  intros HC Hl Hm Hm' Ht HR HR' Hk Hi.
  assert (T : take (length ns - k) (reverse ns') = take (length ns - k) (reverse ns)). { apply list_eq. intros j. destruct (decide (j < length ns - k)) as [Hj|Hj]; [|by rewrite !lookup_take_ge by lia].
    rewrite !lookup_take by done. rewrite !reverse_lookup by lia. rewrite Hl. pose proof (f_equal (fun u => u !! (length ns - S j - k)) Ht) as K. cbv beta in K.
    rewrite !lookup_drop in K. by replace (k + (length ns - S j - k)) with (length ns - S j) in K by lia. }
  assert (E : reverse ms' !! (length ns - S i) = reverse ms !! (length ns - S i)).
  { apply (HC (reverse ns) (reverse ns') (reverse ms) (reverse ms') (length ns - k)); rewrite ?reverse_length; done || lia. }
  rewrite !reverse_lookup in E by lia. rewrite Hm, Hm' in E. by replace (length ns - S (length ns - S i)) with i in E by lia.
Qed.
Theorem ahead_forward y y' w s norm k a ax l : valid y -> numeric_larry y -> valid y' -> numeric_larry y' ->
  axis_is y a ax -> llabel y !! ax = Some l -> (1 <= w <= Z.of_nat (length l))%Z -> s <= length l -> agree_from k ax y y' ->
  exists z z', larry_movingsum_forward y w s a norm = Ok z /\ larry_movingsum_forward y' w s a norm = Ok z' /\ agree_from k ax z z'.
Proof.
  intros Hv Hn Hv' Hn' Hax Hl Hw Hs HA. assert (HL : llabel y' = llabel y) by apply HA. assert (Hax' : axis_is y' a ax) by (unfold axis_is; by rewrite HL). assert (Hl' : llabel y' !! ax = Some l) by (by rewrite HL).
  destruct (C39_forward_partial y w s a norm ax l) as (z & Ez & H); try done. destruct (C39_forward_partial y' w s a norm ax l) as (z' & Ez' & H'); try done.
  exists z, z'. split; [done|]. split; [done|].
  destruct H as (V1 & D1 & L1 & ax1 & X1 & H1), H' as (V2 & D2 & L2 & ax2 & X2 & H2).
  assert (ax1 = ax) as -> by (by eapply axis_is_fun). assert (ax2 = ax) as -> by (by eapply axis_is_fun).
  split; [congruence|]. rewrite L1. intros l1 ls i x Hl1 Hx Hi Hg. assert (l1 = l) as -> by congruence.
  destruct (H1 ls Hg) as (vs & ns & ms & Hvs & Hns & (l2 & Hl2 & Fms) & HR). rewrite HL in H2. destruct (H2 ls Hg) as (vs' & ns' & ms' & Hvs' & Hns' & (l4 & Hl4 & Fms') & HR').
  assert (l2 = l) as -> by congruence. assert (l4 = l) as -> by congruence.
  destruct (agree_from_lane k ax y y' ls vs vs' HA Hg Hvs Hvs') as [E Et].
  pose proof (Forall2_length _ _ _ Hns) as N1. pose proof (Forall2_length _ _ _ Hns') as N2. pose proof (Forall2_length _ _ _ Fms) as M1. pose proof (Forall2_length _ _ _ Fms') as M2. rewrite fmap_length in M1, M2.
  assert (NL : length ns = length l). { destruct Hvs as (l1 & Hl3 & Fvs). assert (l1 = l) as -> by congruence. pose proof (Forall2_length _ _ _ Fvs). lia. }
  assert (HE : ms' !! i = ms !! i).
  { apply (causal_back (moving_sum (Z.to_nat w) s norm) ns ns' ms ms' k); try done; [apply causal_sum|lia..| |].
    - eapply numbers_unique; [apply Forall2_drop; exact Hns'|]. rewrite Et. by apply Forall2_drop.
    - apply lookup_lt_Some in Hx. lia. }
  destruct (Forall2_lookup_l _ _ _ _ _ Fms Hx) as (u & Hu & Hc). destruct (Forall2_lookup_l _ _ _ _ _ Fms' Hx) as (u' & Hu' & Hc').
  rewrite list_lookup_fmap, HE in Hu'. rewrite list_lookup_fmap in Hu. congruence.
Qed.
