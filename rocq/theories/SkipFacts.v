(** C110: skipped elements of moving sums, and the steps of running totals. *)
From Verif Require Import NumFacts MoveFacts SummaryFacts TwiceFacts LaneFacts SpecFacts StepsFacts MovingFacts FarrayFacts ReorderFacts RefineOut LarryFacts PropsLarry PropsNumeric PropsMove.
From Verif Require Import Numeric.
From Verif Require Import Bounds2Facts Mono2Facts PartsFacts SpanFacts.
From Verif Require Export SpecSkip.

Lemma sum_down w s norm ns ms m0 : 1 <= w -> moving_sum w s norm ns ms -> moving_sum w 0 norm ns m0 ->
  (forall i, i < length ns -> i < s -> ms !! i = Some NaN) /\ forall i, i + s < length ns -> ms !! (i + s) = m0 !! i.
Proof.
  intros Hw [Hl H] [Hl0 H0]. split.
  - intros i Hi Hs. specialize (H i Hi). by rewrite decide_True in H by lia.
  - intros i Hi. specialize (H (i + s) Hi). specialize (H0 i ltac:(lia)). destruct (decide (i + 1 < w)) as [E|E].
    + rewrite decide_True in H by lia. rewrite decide_True in H0 by lia. congruence.
    + rewrite decide_False in H by lia. rewrite decide_False in H0 by lia. unfold window_at in H, H0.
      replace (i + s + 1 - w - s) with (i + 1 - w) in H by lia. replace (i + 1 - w - 0) with (i + 1 - w) in H0 by lia.
      destruct H as [A B], H0 as [A0 B0]. assert (HD : no_infinity (take (i + 1 - w) ns) \/ ~ no_infinity (take (i + 1 - w) ns)).
      { destruct (decide (Forall (fun n => is_inf n = false) (take (i + 1 - w) ns))) as [F|F]; [left|right]; [intros n Hn; rewrite Forall_forall in F; auto|].
        intros K. apply F. apply Forall_forall. auto. }
      destruct HD as [D|D]; [rewrite (A D), (A0 D)|rewrite (B D), (B0 D)]; done.
Qed.
Theorem movingsum_skip y w s a norm ax l : valid y -> numeric_larry y -> axis_is y a ax -> llabel y !! ax = Some l -> (1 <= w <= Z.of_nat (length l))%Z -> s <= length l ->
  exists x xs, np_movingsum (lx y) w 0 a norm = Ok x /\ np_movingsum (lx y) w s a norm = Ok xs /\ moved_down s ax (Larry x (llabel y)) (Larry xs (llabel y)).
Proof.
  intros Hv Hn Hax Hl Hw Hs. destruct (C39_movingsum_partial y w 0 a norm ax l) as (x & Ex & V0 & D0 & L0 & ax0 & X0 & H0); try done; [lia|].
  destruct (C39_movingsum_partial y w s a norm ax l) as (xs & Es & V1 & D1 & L1 & ax1 & X1 & H1); try done.
  assert (ax0 = ax) as -> by (by eapply axis_is_fun). assert (ax1 = ax) as -> by (by eapply axis_is_fun).
  exists x, xs. split; [done|]. split; [done|]. split; [done|]. split; [done|]. split; [done|]. exists l. split; [done|]. simpl. intros ls i u Hg Hu.
  destruct (H0 ls Hg) as (vs & ns & m0 & Hvs & Hns & Hm0 & R0). destruct (H1 ls Hg) as (vs' & ns' & ms & Hvs' & Hns' & Hms & R1).
  assert (vs' = vs) as -> by (by eapply lane_fun). assert (ns' = ns) as -> by (by eapply numbers_unique).
  destruct Hvs as (l1 & Hl1 & Fvs). assert (l1 = l) as -> by congruence.
  assert (Hlen : length ns = length l). { rewrite <-(Forall2_length _ _ _ Hns). symmetry. by eapply Forall2_length. }
  destruct (sum_down (Z.to_nat w) s norm ns ms m0) as [K1 K2]; [lia|done|done|].
  destruct Hm0 as (l2 & Hl2 & F0), Hms as (l3 & Hl3 & Fs). simpl in Hl2, Hl3. assert (l2 = l) as -> by congruence. assert (l3 = l) as -> by congruence.
  assert (Hi : i < length l) by (by eapply lookup_lt_Some).
  split.
  - intros His. destruct (Forall2_lookup_l _ _ _ _ _ Fs Hu) as (v & Hvi & Hc). rewrite list_lookup_fmap, (K1 i) in Hvi by lia. simpl in Hvi. congruence.
  - intros u' Hu'. assert (Hi' : i + s < length l) by (by eapply lookup_lt_Some).
    destruct (Forall2_lookup_l _ _ _ _ _ Fs Hu') as (v & Hvi & Hc). destruct (Forall2_lookup_l _ _ _ _ _ F0 Hu) as (v0 & Hv0 & Hc0).
    rewrite list_lookup_fmap, K2 in Hvi by lia. rewrite list_lookup_fmap in Hv0. congruence.
Qed.
(** The same with lag. *)
Theorem skip_is_lag y w s a norm ax l x xs : valid y -> numeric_larry y -> axis_is y a ax -> llabel y !! ax = Some l -> (1 <= w <= Z.of_nat (length l))%Z -> 0 < s <= length l ->
  np_movingsum (lx y) w 0 a norm = Ok x -> np_movingsum (lx y) w s a norm = Ok xs ->
  exists z, lag (Larry x (llabel y)) (Z.of_nat s) (Some a) = Ok z /\ llabel z = <[ax := drop s l]> (llabel y) /\
    forall ls, in_grid (llabel z) ls -> cell z ls = cell (Larry xs (llabel y)) ls.
Proof.
  intros Hv Hn Hax Hl Hw Hs Ex Es. destruct (movingsum_skip y w s a norm ax l) as (x' & xs' & Ex' & Es' & V0 & V1 & _ & l' & Hl' & H); try done; [lia|].
  assert (x' = x) as -> by congruence. assert (xs' = xs) as -> by congruence. simpl in Hl'. assert (l' = l) as -> by congruence.
  destruct (C31_lag_positive (Larry x (llabel y)) s a ax l) as (z & Ez & Vz & _ & Lz & HC); try done; [lia|]. simpl in Lz.
  exists z. split_and!; try done. rewrite Lz. intros ls Hg. assert (Hlt : ax < length (llabel y)) by (by eapply lookup_lt_Some).
  destruct (in_grid_lookup _ _ ax (drop s l) Hg) as (u & Eu & [i Hu]%elem_of_list_lookup); [by apply list_lookup_insert|]. rewrite lookup_drop in Hu.
  destruct (lookup_lt_is_Some_2 l i) as (u0 & Hu0). { apply lookup_lt_Some in Hu. lia. }
  assert (Hg' : in_grid (delete ax (llabel y)) (delete ax ls)). { rewrite <-(delete_insert_same (llabel y) ax (drop s l)). by apply Forall2_delete. }
  destruct (H (delete ax ls) i u0 Hg' Hu0) as [_ K]. specialize (K u). rewrite Nat.add_comm in K. specialize (K Hu).
  rewrite (with_label_delete _ _ _ Eu) in K. rewrite K.
  rewrite (HC ls i u u0); [|done|by rewrite Nat.add_comm|done]. f_equal. symmetry. apply with_label_delete_insert.
  rewrite (Forall2_length _ _ _ Hg), insert_length. done.
Qed.

(** The steps of cumsum. *)
Lemma cum_total ns i n n' : ns !! i = Some n -> ns !! S i = Some n' -> n' <> NaN ->
  num_total (present (take (S (S i)) ns)) = num_add (num_total (present (take (S i) ns))) n'.
Proof.
  intros Hn Hn' Hne. rewrite (take_S_r _ _ _ Hn'). unfold present. rewrite filter_app, total_app, filter_cons_True by done. rewrite filter_nil.
  f_equal. cbn [num_total foldr]. apply num_add_0_r.
Qed.
Theorem cumsum_steps y a ax z : valid y -> axis_is y a ax -> larry_cum CSum y (Some a) = Ok z -> grows_by num_add y ax z.
Proof.
  intros Hv Hax Hz. destruct (C32_cum _ _ _ _ Hv Hz) as (a' & ax' & [= <-] & Hax' & Ha & Vz & Lz & HC). assert (ax' = ax) as -> by (by eapply axis_is_fun).
  destruct (lookup_lt_is_Some_2 (llabel y) ax) as (l & Hl); [by destruct Hax|].
  split; [done|]. split; [done|]. exists l. split; [done|]. intros ls i x Hg Hx.
  assert (HN : NoDup l). { apply valid_nodup in Hv. by eapply Forall_lookup_1 in Hv. }
  assert (Hls : ax <= length ls). { rewrite (Forall2_length _ _ _ Hg), length_delete by eauto. destruct Hax as [? _]. lia. }
  assert (HX : forall i x, l !! i = Some x -> exists vs ns e c n m, lane_of y ax ls vs /\ numbers vs ns /\ ns !! i = Some n /\ cell y (with_label ax x ls) = Some e /\
    cell z (with_label ax x ls) = Some c /\ to_num e = Some n /\ to_num c = Some m /\ m = if decide (n = NaN) then NaN else num_total (present (take (S i) ns))).
  { clear i x Hx. intros i x Hx. assert (Hin : x ∈ l) by (by eapply elem_of_list_lookup_2).
    destruct (HC (with_label ax x ls)) as (vs & k & v & (Hvs & l1 & x1 & Hl1 & Hx1 & Hk) & Hc & ns & n & m & Hns & Hn & Hm & HA). { by eapply with_label_grid. }
    assert (l1 = l) as -> by congruence. rewrite delete_with_label in Hvs by done. rewrite FarrayFacts.with_label_lookup in Hx1 by done. assert (x1 = x) as -> by congruence.
    assert (k = i) as -> by (by eapply NoDup_lookup).
    destruct Hvs as (l1 & Hl1' & Fvs). assert (l1 = l) as -> by congruence. destruct (Forall2_lookup_l _ _ _ _ _ Fvs Hx) as (e & He & Hce).
    destruct (Forall2_lookup_l _ _ _ _ _ Hns He) as (n' & Hn' & Hte). assert (n' = n) as -> by congruence.
    exists vs, ns, e, v, n, m. split_and!; try done. by exists l. }
  destruct (HX i x Hx) as (vs & ns & e & c & n & m & Hvs & Hns & Hn & He & Hc & Hte & Htc & Em).
  exists e, c, n, m. split_and!; try done.
  - intros E. by rewrite Em, decide_True.
  - intros ->. rewrite Em. case_decide as E; [done|]. destruct ns as [|n0 ns]; [done|]. simpl in Hn. simplify_eq. simpl take. unfold present. rewrite filter_cons_True by done. rewrite take_0, filter_nil.
    cbn [num_total foldr]. apply num_add_0_r.
  - intros x' e' c' n' m' Hx' He' Hc' Hte' Htc' Hn1 Hn2. destruct (HX (S i) x' Hx') as (vs' & ns' & e'' & c'' & n'' & m'' & Hvs' & Hns' & Hn' & He'' & Hc'' & Hte'' & Htc'' & Em').
    assert (vs' = vs) as -> by (by eapply lane_fun). assert (ns' = ns) as -> by (by eapply numbers_unique).
    assert (n'' = n') as -> by congruence. assert (m'' = m') as -> by congruence. rewrite Em', Em, !decide_False by done. by apply (cum_total ns i n n').
Qed.
(** The steps of cumprod. *)
Lemma cum_product ns i n n' : ns !! i = Some n -> ns !! S i = Some n' -> n' <> NaN ->
  num_product (present (take (S (S i)) ns)) = num_mul (num_product (present (take (S i) ns))) n'.
Proof.
  intros Hn Hn' Hne. rewrite (take_S_r _ _ _ Hn'). unfold present. rewrite filter_app, product_app, filter_cons_True by done. rewrite filter_nil.
  f_equal. cbn [num_product foldr]. apply num_mul_1_r.
Qed.
Theorem cumprod_steps y a ax z : valid y -> axis_is y a ax -> larry_cum CProd y (Some a) = Ok z -> grows_by num_mul y ax z.
Proof.
  intros Hv Hax Hz. destruct (C32_cum _ _ _ _ Hv Hz) as (a' & ax' & [= <-] & Hax' & Ha & Vz & Lz & HC). assert (ax' = ax) as -> by (by eapply axis_is_fun).
  destruct (lookup_lt_is_Some_2 (llabel y) ax) as (l & Hl); [by destruct Hax|].
  split; [done|]. split; [done|]. exists l. split; [done|]. intros ls i x Hg Hx.
  assert (HN : NoDup l). { apply valid_nodup in Hv. by eapply Forall_lookup_1 in Hv. }
  assert (Hls : ax <= length ls). { rewrite (Forall2_length _ _ _ Hg), length_delete by eauto. destruct Hax as [? _]. lia. }
  assert (HX : forall i x, l !! i = Some x -> exists vs ns e c n m, lane_of y ax ls vs /\ numbers vs ns /\ ns !! i = Some n /\ cell y (with_label ax x ls) = Some e /\
    cell z (with_label ax x ls) = Some c /\ to_num e = Some n /\ to_num c = Some m /\ m = if decide (n = NaN) then NaN else num_product (present (take (S i) ns))).
  { clear i x Hx. intros i x Hx. assert (Hin : x ∈ l) by (by eapply elem_of_list_lookup_2).
    destruct (HC (with_label ax x ls)) as (vs & k & v & (Hvs & l1 & x1 & Hl1 & Hx1 & Hk) & Hc & ns & n & m & Hns & Hn & Hm & HA). { by eapply with_label_grid. }
    assert (l1 = l) as -> by congruence. rewrite delete_with_label in Hvs by done. rewrite FarrayFacts.with_label_lookup in Hx1 by done. assert (x1 = x) as -> by congruence.
    assert (k = i) as -> by (by eapply NoDup_lookup).
    destruct Hvs as (l1 & Hl1' & Fvs). assert (l1 = l) as -> by congruence. destruct (Forall2_lookup_l _ _ _ _ _ Fvs Hx) as (e & He & Hce).
    destruct (Forall2_lookup_l _ _ _ _ _ Hns He) as (n' & Hn' & Hte). assert (n' = n) as -> by congruence.
    exists vs, ns, e, v, n, m. split_and!; try done. by exists l. }
  destruct (HX i x Hx) as (vs & ns & e & c & n & m & Hvs & Hns & Hn & He & Hc & Hte & Htc & Em).
  exists e, c, n, m. split_and!; try done.
  - intros E. by rewrite Em, decide_True.
  - intros ->. rewrite Em. case_decide as E; [done|]. destruct ns as [|n0 ns]; [done|]. simpl in Hn. simplify_eq. simpl take. unfold present. rewrite filter_cons_True by done. rewrite take_0, filter_nil.
    cbn [num_product foldr]. apply num_mul_1_r.
  - intros x' e' c' n' m' Hx' He' Hc' Hte' Htc' Hn1 Hn2. destruct (HX (S i) x' Hx') as (vs' & ns' & e'' & c'' & n'' & m'' & Hvs' & Hns' & Hn' & He'' & Hc'' & Hte'' & Htc'' & Em').
    assert (vs' = vs) as -> by (by eapply lane_fun). assert (ns' = ns) as -> by (by eapply numbers_unique).
    assert (n'' = n') as -> by congruence. assert (m'' = m') as -> by congruence. rewrite Em', Em, !decide_False by done. by apply (cum_product ns i n n').
Qed.
Theorem cumsum_grows y a ax : valid y -> arithmetic (ldtype y) -> axis_is y a ax -> exists z, larry_cum CSum y (Some a) = Ok z /\ grows_by num_add y ax z.
Proof. intros Hv Ha Hax. destruct (C32_cum_succeeds CSum y a ax Hv Ha Hax) as [z Hz]. exists z. split; [done|]. by apply (cumsum_steps y a). Qed.
Theorem cumprod_grows y a ax : valid y -> arithmetic (ldtype y) -> axis_is y a ax -> exists z, larry_cum CProd y (Some a) = Ok z /\ grows_by num_mul y ax z.
Proof. intros Hv Ha Hax. destruct (C32_cum_succeeds CProd y a ax Hv Ha Hax) as [z Hz]. exists z. split; [done|]. by apply (cumprod_steps y a). Qed.
