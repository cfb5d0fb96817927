(** C113: labels at which everything is missing do not count within groups. *)
From Verif Require Import NumFacts RankFacts RankLarry MoveFacts SummaryFacts TwiceFacts CutFacts LaneFacts SpecFacts StepsFacts MovingFacts FarrayFacts ReorderFacts RefineOut LarryFacts GroupFacts PropsLarry PropsNumeric PropsFarray PropsGroup.
From Verif Require Import Numeric.
From Verif Require Import OneGroupFacts NamingFacts ThinFacts.

Lemma members_place {A} g gs (xs xs' : list A) k h : length xs = length gs -> length xs' = length gs -> gs !! k = Some h -> group_eq g h ->
  exists j, members g gs xs !! j = xs !! k /\ members g gs xs' !! j = xs' !! k.
Proof.
  unfold members. revert xs xs' k. induction gs as [|h0 gs IH]; intros [|x xs] [|x' xs'] k Hl Hl' Hk Hg; try done. simpl zip.
  destruct (decide (group_eq g h0)) as [E|E].
  - rewrite !filter_cons_True by done. rewrite !fmap_cons. destruct k as [|k]; [by exists 0|].
    destruct (IH xs xs' k) as (j & J & J'); auto. by exists (S j).
  - rewrite !filter_cons_False by done. destruct k as [|k]; [simpl in Hk; congruence|].
    destruct (IH xs xs' k) as (j & J & J'); auto. by exists j.
Qed.
Lemma members_cons {A} g h gs (x : A) xs : members g (h :: gs) (x :: xs) = if decide (group_eq g h) then x :: members g gs xs else members g gs xs.
Proof. unfold members. simpl zip. destruct (decide (group_eq g h)); [by rewrite filter_cons_True by done|by rewrite filter_cons_False by done]. Qed.
Lemma present_cons n ns : present (n :: ns) = if decide (n <> NaN) then n :: present ns else present ns.
Proof. unfold present. rewrite filter_cons. by case_decide. Qed.
Lemma thin_members P l l' (c c' : lab -> option val) (d : lab -> option val) g gs gs' vs vs' ns ns' : kept P l l' -> (forall x, x ∈ l -> (P x -> c' x = c x) /\ (~ P x -> c x = Some (VFloat NaN))) ->
  Forall2 (fun x g => d x = Some g) l gs -> Forall2 (fun x g => d x = Some g) l' gs' ->
  Forall2 (fun x v => c x = Some v) l vs -> Forall2 (fun x v => c' x = Some v) l' vs' -> numbers vs ns -> numbers vs' ns' -> present (members g gs' ns') = present (members g gs ns).
Proof.
  intros HK. revert gs gs' vs vs' ns ns'. induction HK as [|x l l' Px HK IH|x l l' Px HK IH]; intros gs gs' vs vs' ns ns' H G G' F F' N N'.
  - inversion F; subst. inversion F'; subst. inversion N; subst. inversion N'; subst. inversion G; subst. by inversion G'.
  - inversion F as [|? v ? vs0 Hv F0]; subst. inversion F' as [|? v' ? vs0' Hv' F0']; subst. inversion N as [|? n ? ns0 Hn N0]; subst. inversion N' as [|? n' ? ns0' Hn' N0']; subst.
    inversion G as [|? h ? gs0 Hh G0]; subst. inversion G' as [|? h' ? gs0' Hh' G0']; subst. assert (h' = h) as -> by congruence.
    destruct (H x) as [E _]; [by left|]. assert (v' = v) as -> by (rewrite (E Px) in Hv'; congruence). assert (n' = n) as -> by congruence.
    assert (IH' := IH gs0 gs0' vs0 vs0' ns0 ns0' (fun u Hu => H u (elem_of_list_further _ _ _ Hu)) G0 G0' F0 F0' N0 N0').
    rewrite !members_cons. destruct (decide (group_eq g h)); [|done]. rewrite !present_cons. destruct (decide (n <> NaN)); by rewrite IH'.
  - inversion F as [|? v ? vs0 Hv F0]; subst. inversion N as [|? n ? ns0 Hn N0]; subst. inversion G as [|? h ? gs0 Hh G0]; subst. destruct (H x) as [_ E]; [by left|].
    rewrite (E Px) in Hv. simplify_eq. simpl in Hn. simplify_eq.
    assert (IH' : present (members g gs' ns') = present (members g gs0 ns0)). { apply (IH gs0 gs' vs0 vs' ns0 ns'); try done. intros u Hu. apply H. by right. }
    rewrite members_cons. destruct (decide (group_eq g h)); [|done]. rewrite present_cons. by destruct (decide (NaN <> NaN)).
Qed.
Lemma within_present R gs gs' ns ns' ms ms' i i' g n : by_present R -> (forall g, present (members g gs' ns') = present (members g gs ns)) ->
  length gs = length ns -> length gs' = length ns' -> within_groups R gs ns ms -> within_groups R gs' ns' ms' ->
  gs !! i = Some g -> gs' !! i' = Some g -> ns !! i = Some n -> ns' !! i' = Some n -> ms !! i = ms' !! i'.
Proof.
  intros HR E Hl Hl' (Hm & H & HN) (Hm' & H' & HN') Hg Hg' Hn Hn'. destruct (decide (group_eq g g)) as [Eg|Eg].
  - destruct (members_place g gs ns ms i g) as (j & J1 & J2); try done; [lia..|]. destruct (members_place g gs' ns' ms' i' g) as (j' & J1' & J2'); try done; [lia..|].
    rewrite <-J2, <-J2'. apply (HR (members g gs ns) (members g gs' ns') _ _ j j' n); [done|apply H|apply H'|congruence..]; try done; by eapply elem_of_list_lookup_2.
  - by rewrite (HN i g), (HN' i' g).
Qed.
Lemma present_all_mean : by_present all_mean.
Proof.
  intros ns ns' ms ms' i i' n E -> -> Hn Hn'. rewrite E. apply lookup_lt_Some in Hn, Hn'. by rewrite !lookup_replicate_2.
Qed.
Lemma present_all_median : by_present all_median.
Proof.
  intros ns ns' ms ms' i i' n E (m & Hm & ->) (m' & Hm' & ->) Hn Hn'. unfold median_or_nan in *. rewrite E in Hm'. apply lookup_lt_Some in Hn, Hn'. rewrite !lookup_replicate_2 by done. f_equal.
  case_decide; [congruence|]. by eapply median_of_fun.
Qed.
Lemma thin_within R y y' group a ax l l' gs gs' z z' : by_present R -> axis_is y a ax -> thinned ax y y' -> llabel y !! ax = Some l -> llabel y' !! ax = Some l' ->
  groups_of group l gs -> groups_of group l' gs' ->
  lanes_related (within_groups R gs) y (Some a) z -> lanes_related (within_groups R gs') y' (Some a) z' -> same_where_kept z z'.
Proof.
  intros HR Hax HT Hl0 Hl0' HG HG' (V1 & D1 & L1 & ax1 & X1 & H1) (V2 & D2 & L2 & ax2 & X2 & H2). pose proof (thin_axis ax y y' a HT Hax) as Hax'.
  assert (ax1 = ax) as -> by (by eapply axis_is_fun). assert (ax2 = ax) as -> by (by eapply axis_is_fun).
  intros ls Hg. rewrite L2 in Hg. assert (Hg' : in_grid (delete ax (llabel y')) (delete ax ls)) by (by apply Forall2_delete).
  destruct (H2 _ Hg') as (vs' & ns' & ms' & Hvs' & Hns' & Hms' & HR'). rewrite (thin_delete ax y y' HT) in Hg'.
  destruct (H1 _ Hg') as (vs & ns & ms & Hvs & Hns & Hms & HR1).
  destruct HT as (P & l0 & l0' & Hl & HK & HL & H). assert (Hl' : llabel y' !! ax = Some l0') by (rewrite HL; apply list_lookup_insert; by eapply lookup_lt_Some).
  assert (l0 = l) as -> by congruence. assert (l0' = l') as -> by congruence.
  destruct (in_grid_lookup _ _ _ _ Hg Hl') as (x & Ex & Hx). pose proof (proj1 (kept_elem P l l' x HK) Hx) as [Hxl Px].
  apply elem_of_list_lookup in Hx as [i' Hx']. pose proof Hxl as Hxl'. apply elem_of_list_lookup in Hxl' as [i Hxi].
  destruct Hvs as (l1 & Hl1 & F1), Hvs' as (l2 & Hl2 & F2), Hms as (l3 & Hl3 & F3), Hms' as (l4 & Hl4 & F4).
  assert (l1 = l) as -> by congruence. assert (l2 = l') as -> by congruence. assert (l3 = l) as -> by congruence. assert (l4 = l') as -> by congruence.
  assert (E : forall g, present (members g gs' ns') = present (members g gs ns)).
  { intros g. exact (thin_members P l l' (fun x => cell y (with_label ax x (delete ax ls))) (fun x => cell y' (with_label ax x (delete ax ls))) (fun x => cell group [x]) g gs gs' vs vs' ns ns' HK (fun x Hx => H _ x Hg' Hx) HG HG' F1 F2 Hns Hns'). }
  destruct (Forall2_lookup_l _ _ _ _ _ F1 Hxi) as (v & Hv & Hc). destruct (Forall2_lookup_l _ _ _ _ _ F2 Hx') as (v' & Hv' & Hc').
  destruct (H (delete ax ls) x Hg' Hxl) as [HE _]. rewrite (HE Px) in Hc'. assert (v' = v) as -> by congruence.
  destruct (Forall2_lookup_l _ _ _ _ _ Hns Hv) as (n & Hn & Ht). destruct (Forall2_lookup_l _ _ _ _ _ Hns' Hv') as (n' & Hn' & Ht'). assert (n' = n) as -> by congruence.
  destruct (Forall2_lookup_l _ _ _ _ _ HG Hxi) as (g & Hgi & Cg). destruct (Forall2_lookup_l _ _ _ _ _ HG' Hx') as (g' & Hgi' & Cg'). cbv beta in *. assert (g' = g) as -> by congruence.
  assert (EM : ms !! i = ms' !! i').
  { apply (within_present R gs gs' ns ns' ms ms' i i' g n); try done.
    - rewrite <-(Forall2_length _ _ _ Hns), <-(Forall2_length _ _ _ F1). symmetry. by eapply Forall2_length.
    - rewrite <-(Forall2_length _ _ _ Hns'), <-(Forall2_length _ _ _ F2). symmetry. by eapply Forall2_length. }
  destruct (Forall2_lookup_l _ _ _ _ _ F3 Hxi) as (w & Hw & Hz). destruct (Forall2_lookup_l _ _ _ _ _ F4 Hx') as (w' & Hw' & Hz').
  rewrite (with_label_delete _ _ _ Ex) in Hz, Hz'. rewrite list_lookup_fmap in Hw, Hw'. rewrite EM in Hw. congruence.
Qed.
Theorem thin_group m y y' group a ax l l' gs gs' : m ∈ [larry_group_mean; larry_group_median; larry_group_ranking] ->
  valid y -> numeric_larry y -> valid y' -> numeric_larry y' -> valid group -> length (llabel group) = 1 ->
  axis_is y a ax -> llabel y !! ax = Some l -> llabel y' !! ax = Some l' -> groups_of group l gs -> groups_of group l' gs' -> groups_sortable gs -> groups_sortable gs' -> thinned ax y y' ->
  exists z z', m y (Some group) a = Ok z /\ m y' (Some group) a = Ok z' /\ same_where_kept z z'.
Proof.
  intros Hm Hv Hn Hv' Hn' Vg Ng Hax Hl Hl' Hg Hg' Hs Hs' HT. pose proof (thin_axis ax y y' a HT Hax) as Hax'.
  rewrite !elem_of_cons, elem_of_nil in Hm. destruct Hm as [-> |[-> |[-> |[]]]].
  - destruct (C44_mean y group a ax l gs) as (z & Ez & H1); try done. destruct (C44_mean y' group a ax l' gs') as (z' & Ez' & H2); try done.
    exists z, z'. split; [done|]. split; [done|]. exact (thin_within _ y y' group a ax l l' gs gs' z z' present_all_mean Hax HT Hl Hl' Hg Hg' H1 H2).
  - destruct (C44_median y group a ax l gs) as (z & Ez & H1); try done. destruct (C44_median y' group a ax l' gs') as (z' & Ez' & H2); try done.
    exists z, z'. split; [done|]. split; [done|]. exact (thin_within _ y y' group a ax l l' gs gs' z z' present_all_median Hax HT Hl Hl' Hg Hg' H1 H2).
  - destruct (C44_ranking y group a ax l gs) as (z & Ez & H1); try done. destruct (C44_ranking y' group a ax l' gs') as (z' & Ez' & H2); try done.
    exists z, z'. split; [done|]. split; [done|]. exact (thin_within _ y y' group a ax l l' gs gs' z z' present_ranked Hax HT Hl Hl' Hg Hg' H1 H2).
Qed.
