(** C111: the names of groups do not matter. *)
From Verif Require Import NumFacts RankFacts RankLarry MoveFacts SummaryFacts TwiceFacts LaneFacts SpecFacts StepsFacts MovingFacts FarrayFacts ReorderFacts RefineOut LarryFacts PropsLarry PropsNumeric PropsFarray PropsGroup.
From Verif Require Import Numeric.
From Verif Require Import Bounds2Facts Mono2Facts SpanFacts Span2Facts OneGroupFacts.
From Verif Require Export SpecNaming.

Lemma members_renamed {A} g g' gs gs' (xs : list A) : length gs' = length gs ->
  (forall j h h', gs !! j = Some h -> gs' !! j = Some h' -> (group_eq g h <-> group_eq g' h')) -> members g gs xs = members g' gs' xs.
Proof.
  unfold members. revert gs' xs. induction gs as [|h gs IH]; intros [|h' gs'] [|x xs] Hl H; try done. simpl zip.
  assert (IH' : (filter (fun p => group_eq g p.1) (zip gs xs)).*2 = (filter (fun p => group_eq g' p.1) (zip gs' xs)).*2).
  { apply IH; [simpl in Hl; lia|]. intros j. apply (H (S j)). }
  pose proof (H 0 h h' eq_refl eq_refl) as H0. destruct (decide (group_eq g h)) as [E|E].
  - rewrite filter_cons_True by done. rewrite (filter_cons_True _ (h', x)) by (simpl; tauto). rewrite !fmap_cons. by rewrite IH'.
  - rewrite filter_cons_False by done. rewrite (filter_cons_False _ (h', x)) by (simpl; tauto). done.
Qed.
Lemma within_renamed R gs gs' ns ms : same_partition gs gs' -> within_groups R gs ns ms -> within_groups R gs' ns ms.
Proof.
  intros [Hl H] (Hm & HR & HN). split_and!; [done|..].
  - intros g' [i Hi]%elem_of_list_lookup Hg'. destruct (lookup_lt_is_Some_2 gs i) as (g & Eg). { rewrite <-Hl. by eapply lookup_lt_Some. }
    rewrite <-!(members_renamed g g' gs gs') by (done || (intros j h h' Hj Hj'; by eapply H)).
    apply HR; [by eapply elem_of_list_lookup_2|]. by apply (H i i g g g' g').
  - intros k g' Hk Hg'. destruct (lookup_lt_is_Some_2 gs k) as (g & Eg). { rewrite <-Hl. by eapply lookup_lt_Some. }
    apply (HN k g); [done|]. intros E. apply Hg'. by apply (H k k g g g' g').
Qed.
Lemma members_lookup {A} g gs (xs xs' : list A) k h : length xs = length gs -> length xs' = length gs -> members g gs xs = members g gs xs' ->
  gs !! k = Some h -> group_eq g h -> xs !! k = xs' !! k.
Proof.
  unfold members. revert xs xs' k. induction gs as [|h0 gs IH]; intros [|x xs] [|x' xs'] k Hl Hl' H Hk Hg; try done. simpl zip in H.
  destruct (decide (group_eq g h0)) as [E|E].
  - rewrite !filter_cons_True in H by done. rewrite !fmap_cons in H. injection H as -> H. destruct k as [|k]; [done|]. simpl. apply IH; auto.
  - rewrite !filter_cons_False in H by done. destruct k as [|k]; [simpl in Hk; congruence|]. simpl. apply IH; auto.
Qed.
Lemma within_fun (R : list num -> list num -> Prop) gs ns ms ms' : (forall l m m', R l m -> R l m' -> m = m') -> length gs = length ns ->
  within_groups R gs ns ms -> within_groups R gs ns ms' -> ms = ms'.
Proof.
  intros HF Hl (Hm & HR & HN) (Hm' & HR' & HN'). apply list_eq. intros k. destruct (gs !! k) as [g|] eqn:Eg.
  - destruct (decide (group_eq g g)) as [E|E]; [|by rewrite (HN k g), (HN' k g)].
    assert (Hin : g ∈ gs) by (by eapply elem_of_list_lookup_2).
    apply (members_lookup g gs ms ms' k g); [lia|lia| |done|done]. by apply (HF (members g gs ns)); auto.
  - apply lookup_ge_None in Eg. rewrite !lookup_ge_None_2; [done|lia..].
Qed.
Lemma all_mean_fun l m m' : all_mean l m -> all_mean l m' -> m = m'.
Proof. unfold all_mean. congruence. Qed.
Lemma all_median_fun l m m' : all_median l m -> all_median l m' -> m = m'.
Proof. intros (a & Ha & ->) (b & Hb & ->). f_equal. apply (reduced_or_nan_fun RMedian l); [unfold spans; tauto|done..]. Qed.
Lemma lanes_unique (R : list num -> list num -> Prop) y a ax l z z' : (forall ns m m', length ns = length l -> R ns m -> R ns m' -> m = m') -> axis_is y a ax -> llabel y !! ax = Some l ->
  lanes_related R y (Some a) z -> lanes_related R y (Some a) z' -> z = z'.
Proof.
  intros HF Hax Hl (V1 & D1 & L1 & ax1 & X1 & H1) (V2 & D2 & L2 & ax2 & X2 & H2).
  assert (ax1 = ax) as -> by (by eapply axis_is_fun). assert (ax2 = ax) as -> by (by eapply axis_is_fun).
  apply larry_ext; [done|done|congruence|congruence|]. rewrite L1. intros ls Hgr.
  assert (Hgr' : in_grid (delete ax (llabel y)) (delete ax ls)) by (by apply Forall2_delete).
  destruct (H1 _ Hgr') as (vs & ns & ms & Hvs & Hns & Hms & HR). destruct (H2 _ Hgr') as (vs' & ns' & ms' & Hvs' & Hns' & Hms' & HR').
  assert (vs' = vs) as -> by (by eapply lane_fun). assert (ns' = ns) as -> by (by eapply numbers_unique).
  assert (Hlen : length ns = length l). { rewrite <-(Forall2_length _ _ _ Hns). destruct Hvs as (l1 & Hl1 & Fvs). assert (l1 = l) as -> by congruence. symmetry. by eapply Forall2_length. }
  assert (ms' = ms) as -> by (by eapply HF).
  destruct (in_grid_lookup _ _ _ _ Hgr Hl) as (x & Ex & [i Hx]%elem_of_list_lookup).
  destruct Hms as (l1 & Hl1 & F1), Hms' as (l2 & Hl2 & F2). assert (l1 = l) as -> by congruence. assert (l2 = l) as -> by congruence.
  destruct (Forall2_lookup_l _ _ _ _ _ F1 Hx) as (w & Hw & Hc). destruct (Forall2_lookup_l _ _ _ _ _ F2 Hx) as (w' & Hw' & Hc').
  rewrite (with_label_delete _ _ _ Ex) in Hc, Hc'. congruence.
Qed.
Lemma lanes_weaken (R R' : list num -> list num -> Prop) y a z : (forall ns ms, R ns ms -> R' ns ms) -> lanes_related R y (Some a) z -> lanes_related R' y (Some a) z.
Proof.
  intros HR (V & D & L & ax & X & H). split_and!; try done. exists ax. split; [done|]. intros ls Hg. destruct (H ls Hg) as (vs & ns & ms & ? & ? & ? & ?).
  exists vs, ns, ms. auto.
Qed.
Lemma grouped_same (R : list num -> list num -> Prop) y a ax l gs gs' z z' : (forall l m m', R l m -> R l m' -> m = m') -> axis_is y a ax -> llabel y !! ax = Some l -> length gs' = length l -> same_partition gs gs' ->
  lanes_related (within_groups R gs) y (Some a) z -> lanes_related (within_groups R gs') y (Some a) z' -> z = z'.
Proof.
  intros HF Hax Hl Hg Hp Hz Hz'. apply (lanes_unique (within_groups R gs') y a ax l); [|done|done| |done].
  - intros ns m m' Hn. apply within_fun; [done|lia].
  - eapply lanes_weaken; [|exact Hz]. intros ns ms. by apply within_renamed.
Qed.
Theorem groups_renamed m y g1 g2 a ax l gs1 gs2 : m ∈ [larry_group_mean; larry_group_median; larry_group_ranking] ->
  valid y -> numeric_larry y -> valid g1 -> valid g2 -> length (llabel g1) = 1 -> length (llabel g2) = 1 ->
  axis_is y a ax -> llabel y !! ax = Some l -> groups_of g1 l gs1 -> groups_of g2 l gs2 -> groups_sortable gs1 -> groups_sortable gs2 -> same_partition gs1 gs2 ->
  exists z, m y (Some g1) a = Ok z /\ m y (Some g2) a = Ok z.
Proof.
  intros Hm Hv Hn V1 V2 N1 N2 Hax Hl G1 G2 S1 S2 Hp. assert (Hlen : length gs2 = length l) by (by eapply group_length).
  rewrite !elem_of_cons, elem_of_nil in Hm. destruct Hm as [-> |[-> |[-> |[]]]].
  - destruct (C44_mean y g1 a ax l gs1) as (z & Ez & H1); try done. destruct (C44_mean y g2 a ax l gs2) as (z' & Ez' & H2); try done.
    exists z. split; [done|]. rewrite Ez'. f_equal. symmetry. exact (grouped_same _ y a ax l gs1 gs2 z z' all_mean_fun Hax Hl Hlen Hp H1 H2).
  - destruct (C44_median y g1 a ax l gs1) as (z & Ez & H1); try done. destruct (C44_median y g2 a ax l gs2) as (z' & Ez' & H2); try done.
    exists z. split; [done|]. rewrite Ez'. f_equal. symmetry. exact (grouped_same _ y a ax l gs1 gs2 z z' all_median_fun Hax Hl Hlen Hp H1 H2).
  - destruct (C44_ranking y g1 a ax l gs1) as (z & Ez & H1); try done. destruct (C44_ranking y g2 a ax l gs2) as (z' & Ez' & H2); try done.
    exists z. split; [done|]. rewrite Ez'. f_equal. symmetry. refine (grouped_same _ y a ax l gs1 gs2 z z' _ Hax Hl Hlen Hp H1 H2). intros ? ? ?. apply ranked_fun.
Qed.

(** What other groups hold does not matter. *)
Lemma members_agree {A} g gs (xs xs' : list A) : length xs = length gs -> length xs' = length gs ->
  (forall k h, gs !! k = Some h -> group_eq g h -> xs !! k = xs' !! k) -> members g gs xs = members g gs xs'.
Proof.
  unfold members. revert xs xs'. induction gs as [|h0 gs IH]; intros [|x xs] [|x' xs'] Hl Hl' H; try done. simpl zip.
  assert (IH' : (filter (fun p => group_eq g p.1) (zip gs xs)).*2 = (filter (fun p => group_eq g p.1) (zip gs xs')).*2).
  { apply IH; [simpl in *; lia..|]. intros k. apply (H (S k)). }
  destruct (decide (group_eq g h0)) as [E|E].
  - rewrite !filter_cons_True by done. rewrite !fmap_cons. rewrite IH'. f_equal. specialize (H 0 h0 eq_refl E). simpl in H. simpl. congruence.
  - by rewrite !filter_cons_False by done.
Qed.
Lemma within_local (R : list num -> list num -> Prop) gs ns ns' ms ms' h : (forall l m m', R l m -> R l m' -> m = m') -> length gs = length ns -> length ns' = length ns ->
  within_groups R gs ns ms -> within_groups R gs ns' ms' -> h ∈ gs -> group_eq h h ->
  (forall k g, gs !! k = Some g -> group_eq h g -> ns' !! k = ns !! k) -> forall k g, gs !! k = Some g -> group_eq h g -> ms' !! k = ms !! k.
Proof.
  intros HF Hl Hl' (Hm & HR & _) (Hm' & HR' & _) Hh Hhh H k g Hk Hg. specialize (HR h Hh Hhh). specialize (HR' h Hh Hhh).
  rewrite (members_agree h gs ns' ns) in HR' by (done || lia). apply (members_lookup h gs ms' ms k g); [lia|lia| |done|done]. by eapply HF.
Qed.
Lemma group_eq_left h g : group_eq h g -> group_eq h h.
Proof. destruct h, g; simpl; tauto. Qed.
Lemma group_eq_sym h g : group_eq h g -> group_eq g h.
Proof. destruct h, g; simpl; try done; intros (E & H & K); rewrite <-E; auto. Qed.
Lemma group_eq_trans h g k : group_eq h g -> group_eq g k -> group_eq h k.
Proof. destruct h, g, k; simpl; intros H K; try (by destruct K as (? & ? & ?), H as (? & ? & ?)); try congruence; try tauto; destruct K as (E & _ & _), H as (E' & ? & ?); rewrite <-?E, ?E'; try done; by rewrite <-E', E || (split_and!; congruence). Qed.
Lemma grouped_local (R : list num -> list num -> Prop) y y' group h a ax l gs z z' : (forall l m m', R l m -> R l m' -> m = m') ->
  axis_is y a ax -> axis_is y' a ax -> llabel y !! ax = Some l -> groups_of group l gs -> agree_in group h ax y y' ->
  lanes_related (within_groups R gs) y (Some a) z -> lanes_related (within_groups R gs) y' (Some a) z' -> agree_in group h ax z z'.
Proof.
  intros HF Hax Hax' Hl Hg [HL HA] (V1 & D1 & L1 & ax1 & X1 & H1) (V2 & D2 & L2 & ax2 & X2 & H2).
  assert (ax1 = ax) as -> by (by eapply axis_is_fun). assert (ax2 = ax) as -> by (by eapply axis_is_fun).
  split; [congruence|]. rewrite L1. intros l' ls x g Hl' [i Hx]%elem_of_list_lookup Hgr Hxg Hh. assert (l' = l) as -> by congruence.
  destruct (H1 ls Hgr) as (vs & ns & ms & (l1 & Hl1 & Fvs) & Hns & (l2 & Hl2 & Fms) & HR). rewrite HL in H2, L2. destruct (H2 ls Hgr) as (vs' & ns' & ms' & (l3 & Hl3 & Fvs') & Hns' & (l4 & Hl4 & Fms') & HR').
  assert (l1 = l) as -> by congruence. assert (l2 = l) as -> by congruence. assert (l3 = l) as -> by congruence. assert (l4 = l) as -> by congruence.
  assert (Hlen : length ns = length l). { rewrite <-(Forall2_length _ _ _ Hns). symmetry. by eapply Forall2_length. }
  assert (Hlen' : length ns' = length l). { rewrite <-(Forall2_length _ _ _ Hns'). symmetry. by eapply Forall2_length. }
  assert (Hgl : length gs = length l) by (by eapply group_length).
  destruct (Forall2_lookup_l _ _ _ _ _ Hg Hx) as (g0 & Hg0 & Hxg0). assert (g0 = g) as -> by congruence.
  assert (Hgg : group_eq g g) by (eapply group_eq_left, group_eq_sym; exact Hh).
  assert (HE : ms' !! i = ms !! i).
  { apply (within_local R gs ns ns' ms ms' g) with (k := i) (g := g); try done; [lia|lia|by eapply elem_of_list_lookup_2|].
    intros k g1 Hk Hg1. destruct (Forall2_lookup_r _ _ _ _ _ Hg Hk) as (u & Hu & Hug).
    destruct (Forall2_lookup_l _ _ _ _ _ Fvs Hu) as (e & He & Hce). destruct (Forall2_lookup_l _ _ _ _ _ Fvs' Hu) as (e' & He' & Hce').
    assert (Hc : cell y' (with_label ax u ls) = cell y (with_label ax u ls)).
    { apply (HA l ls u g1); try done; [by eapply elem_of_list_lookup_2|]. by eapply group_eq_trans. }
    assert (e' = e) as -> by congruence.
    destruct (Forall2_lookup_l _ _ _ _ _ Hns He) as (n & Hn & Ht). destruct (Forall2_lookup_l _ _ _ _ _ Hns' He') as (n' & Hn' & Ht'). congruence. }
  destruct (Forall2_lookup_l _ _ _ _ _ Fms Hx) as (w & Hw & Hc). destruct (Forall2_lookup_l _ _ _ _ _ Fms' Hx) as (w' & Hw' & Hc').
  rewrite list_lookup_fmap, HE in Hw'. rewrite list_lookup_fmap in Hw. congruence.
Qed.
Theorem groups_local m y y' group h a ax l gs : m ∈ [larry_group_mean; larry_group_median; larry_group_ranking] ->
  valid y -> numeric_larry y -> valid y' -> numeric_larry y' -> valid group -> length (llabel group) = 1 ->
  axis_is y a ax -> llabel y !! ax = Some l -> groups_of group l gs -> groups_sortable gs -> agree_in group h ax y y' ->
  exists z z', m y (Some group) a = Ok z /\ m y' (Some group) a = Ok z' /\ agree_in group h ax z z'.
Proof.
  intros Hm Hv Hn Hv' Hn' Vg Ng Hax Hl Hg Hs HA. assert (HL : llabel y' = llabel y) by apply HA.
  assert (Hax' : axis_is y' a ax). { unfold axis_is in *. by rewrite HL. } assert (Hl' : llabel y' !! ax = Some l) by congruence.
  rewrite !elem_of_cons, elem_of_nil in Hm. destruct Hm as [-> |[-> |[-> |[]]]].
  - destruct (C44_mean y group a ax l gs) as (z & Ez & H1); try done. destruct (C44_mean y' group a ax l gs) as (z' & Ez' & H2); try done.
    exists z, z'. split; [done|]. split; [done|]. exact (grouped_local _ y y' group h a ax l gs z z' all_mean_fun Hax Hax' Hl Hg HA H1 H2).
  - destruct (C44_median y group a ax l gs) as (z & Ez & H1); try done. destruct (C44_median y' group a ax l gs) as (z' & Ez' & H2); try done.
    exists z, z'. split; [done|]. split; [done|]. exact (grouped_local _ y y' group h a ax l gs z z' all_median_fun Hax Hax' Hl Hg HA H1 H2).
  - destruct (C44_ranking y group a ax l gs) as (z & Ez & H1); try done. destruct (C44_ranking y' group a ax l gs) as (z' & Ez' & H2); try done.
    exists z, z'. split; [done|]. split; [done|]. refine (grouped_local _ y y' group h a ax l gs z z' _ Hax Hax' Hl Hg HA H1 H2). intros ? ? ?. apply ranked_fun.
Qed.
