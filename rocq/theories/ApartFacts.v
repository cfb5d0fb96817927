(** C114: the groups can be computed one at a time. *)
From Verif Require Import NumFacts RankFacts RankLarry MoveFacts SummaryFacts TwiceFacts CutFacts LaneFacts SpecFacts StepsFacts MovingFacts FarrayFacts ReorderFacts RefineOut LarryFacts PropsLarry PropsNumeric PropsFarray PropsGroup.
From Verif Require Import Numeric.
From Verif Require Import Bounds2Facts Mono2Facts PartsFacts SpanFacts Span2Facts OneGroupFacts NamingFacts ThinFacts.
From Verif Require Export SpecApart.

Lemma members_kept {A} (c : lab -> option A) P h l l' gs xs : kept P l l' -> Forall2 (fun x g => P x <-> group_eq h g) l gs -> Forall2 (fun x v => c x = Some v) l xs ->
  Forall2 (fun x v => c x = Some v) l' (members h gs xs).
Proof.
  intros HK. revert gs xs. induction HK as [|x l l' Px HK IH|x l l' Px HK IH]; intros gs xs HG HX.
  - inversion HG; subst. inversion HX; subst. constructor.
  - inversion HG as [|? g ? gs0 Hg HG0]; subst. inversion HX as [|? v ? xs0 Hv HX0]; subst. unfold members. simpl zip. rewrite filter_cons_True by (simpl; tauto). rewrite fmap_cons. constructor; [done|]. by apply IH.
  - inversion HG as [|? g ? gs0 Hg HG0]; subst. inversion HX as [|? v ? xs0 Hv HX0]; subst. unfold members. simpl zip. rewrite filter_cons_False by (simpl; tauto). by apply IH.
Qed.
Lemma members_numbers h gs vs ns : numbers vs ns -> numbers (members h gs vs) (members h gs ns).
Proof.
  unfold members. intros H. revert gs. induction H as [|v n vs ns Hv H IH]; intros [|g gs]; simpl zip; try constructor.
  destruct (decide (group_eq h g)) as [E|E]; [rewrite !filter_cons_True by done; rewrite !fmap_cons; constructor; [done|apply IH]|rewrite !filter_cons_False by done; apply IH].
Qed.
Lemma members_fmap {A B} (f : A -> B) h gs xs : members h gs (f <$> xs) = f <$> members h gs xs.
Proof.
  unfold members. revert gs. induction xs as [|x xs IH]; intros [|g gs]; try done. rewrite fmap_cons. simpl zip.
  destruct (decide (group_eq h g)) as [E|E]; [rewrite !filter_cons_True by done; rewrite !fmap_cons; simpl; f_equal; apply IH|rewrite !filter_cons_False by done; apply IH].
Qed.
(** What one group holds, from a lane of the part. *)
Lemma part_lane (R : list num -> list num -> Prop) y y' group h a ax l gs z ls : valid y' -> axis_is y a ax -> llabel y !! ax = Some l -> groups_of group l gs -> group_part group h ax y y' ->
  lanes_related (within_groups R gs) y (Some a) z -> in_grid (llabel y') ls ->
  exists l' vs' ns' ms', llabel y' !! ax = Some l' /\ lane_of y' ax (delete ax ls) vs' /\ numbers vs' ns' /\ R ns' ms' /\
    Forall2 (fun x v => cell z (with_label ax x (delete ax ls)) = Some v) l' (VFloat <$> ms').
Proof.
  intros Hv' Hax Hl Hg (l0 & l' & Hl0 & HK & HL & HC) (Vz & Dz & Lz & ax1 & X1 & H1) Hgr. assert (l0 = l) as -> by congruence.
  assert (ax1 = ax) as -> by (by eapply axis_is_fun).
  assert (Hl' : llabel y' !! ax = Some l') by (rewrite HL; apply list_lookup_insert; by eapply lookup_lt_Some).
  assert (Hd : in_grid (delete ax (llabel y)) (delete ax ls)). { rewrite <-(delete_insert_same (llabel y) ax l'), <-HL. by apply Forall2_delete. }
  destruct (H1 _ Hd) as (vs & ns & ms & (l1 & Hl1 & F) & Hns & (l2 & Hl2 & Fz) & (Hm & HR & _)). assert (l1 = l) as -> by congruence. assert (l2 = l) as -> by congruence.
  assert (HP : Forall2 (fun x g => in_group group h x <-> group_eq h g) l gs).
  { eapply Forall2_impl; [exact Hg|]. intros x g E. simpl in E. split; [intros (g' & Hg' & Hq); congruence|]. intros Hq. by exists g. }
  exists l', (members h gs vs), (members h gs ns), (members h gs ms). split; [done|]. split_and!.
  - exists l'. split; [done|]. assert (F' := members_kept _ _ h l l' gs vs HK HP F).
    clear -F' HC Hl' Hgr HL Hd Hl. revert F'. generalize (members h gs vs). assert (FE' : forall l0, (forall x, x ∈ l0 -> x ∈ l') -> forall ws, Forall2 (fun x v => cell y (with_label ax x (delete ax ls)) = Some v) l0 ws ->
      Forall2 (fun x v => cell y' (with_label ax x (delete ax ls)) = Some v) l0 ws).
    { intros l0 Hs ws Hws. induction Hws as [|x w l0 ws Hw Hws IH]; constructor; [|apply IH; intros u Hu; apply Hs; by right].
      rewrite HC; [done|]. eapply with_label_grid; [exact Hl'|apply Hs; by left|]. by rewrite HL, delete_insert_same. }
    intros ws. by apply FE'.
  - by apply members_numbers.
  - destruct (in_grid_lookup _ _ _ _ Hgr Hl') as (x & Ex & Hx). apply (kept_elem _ _ _ _ HK) in Hx as [Hx (g & Hxg & Hq)].
    apply elem_of_list_lookup in Hx as [i Hi]. destruct (Forall2_lookup_l _ _ _ _ _ Hg Hi) as (g' & Hg' & E). assert (g' = g) as -> by congruence.
    assert (HM : forall B (us : list B), members h gs us = members g gs us).
    { intros B us. apply members_renamed; [done|]. intros j k k' Hk Hk'. assert (k' = k) as -> by congruence.
      split; intros HH; [eapply group_eq_trans; [apply group_eq_sym; exact Hq|done]|by eapply group_eq_trans]. }
    rewrite !HM. apply HR; [by eapply elem_of_list_lookup_2|]. eapply group_eq_left, group_eq_sym. exact Hq.
  - rewrite <-members_fmap. eapply members_kept; [exact HK|exact HP|exact Fz].
Qed.
Lemma part_axis group h ax y y' a : group_part group h ax y y' -> axis_is y a ax -> axis_is y' a ax.
Proof. intros (l & l' & Hl & HK & HL & _). unfold axis_is. by rewrite HL, insert_length. Qed.
Lemma apart_by (Rv : list val -> val -> Prop) (R : list num -> num -> Prop) (Q : list num -> list num -> Prop) y y' group h a ax l gs z b : (forall ns m m', R ns m -> R ns m' -> m = m') ->
  (forall vs v, Rv vs v -> exists ns m, numbers vs ns /\ to_num v = Some m /\ R ns m) -> (forall ns ms, Q ns ms -> exists m, R ns m /\ ms = replicate (length ns) m) ->
  valid y' -> axis_is y a ax -> llabel y !! ax = Some l -> groups_of group l gs -> group_part group h ax y y' ->
  lanes_related (within_groups Q gs) y (Some a) z -> reduction_by Rv y' (Some a) b -> spread_over y' ax z b.
Proof.
  intros HF HRv HQ Hv' Hax Hl Hg HP HL Hb ls Hgr. pose proof (part_axis _ _ _ _ _ _ HP Hax) as Hax'.
  destruct (part_lane Q y y' group h a ax l gs z ls) as (l' & vs' & ns' & ms' & Hl' & Hvs' & Hns' & HR & Fz); try done.
  destruct (HQ _ _ HR) as (m & Hm & ->). destruct (in_grid_lookup _ _ _ _ Hgr Hl') as (x & Ex & [i Hx]%elem_of_list_lookup).
  destruct (Forall2_lookup_l _ _ _ _ _ Fz Hx) as (w & Hw & Hc). rewrite list_lookup_fmap, fmap_Some in Hw. destruct Hw as (n & [-> _]%lookup_replicate & ->).
  rewrite (with_label_delete _ _ _ Ex) in Hc.
  destruct (reduction_by_at Rv y' a ax b (delete ax ls) vs' Hax' Hb) as (v & Hv & Hr); [by apply Forall2_delete|done|].
  destruct (HRv vs' v Hr) as (ns2 & m' & Hns2 & Hm' & HR'). assert (ns2 = ns') as -> by (by eapply numbers_unique).
  exists m, v. split_and!; try done. rewrite Hm'. f_equal. by eapply HF.
Qed.
Theorem apart_mean y y' group h a ax l gs : valid y -> numeric_larry y -> valid y' -> nonempty y' -> numeric_larry y' -> valid group -> length (llabel group) = 1 ->
  axis_is y a ax -> llabel y !! ax = Some l -> groups_of group l gs -> groups_sortable gs -> group_part group h ax y y' ->
  exists z b, larry_group_mean y (Some group) a = Ok z /\ larry_reduce RMean y' (Some a) = Ok b /\ spread_over y' ax z b.
Proof.
  intros Hv Hn Hv' Hne' Hn' Vg Ng Hax Hl Hg Hs HP. assert (Ha' : arithmetic (ldtype y')) by (destruct Hn' as [-> | ->]; unfold arithmetic; tauto).
  pose proof (part_axis _ _ _ _ _ _ HP Hax) as Hax'.
  destruct (C44_mean y group a ax l gs) as (z & Ez & HL); try done. destruct (C33_reduce_succeeds RMean y' (Some a)) as (b & Eb & Rb); try done; [by exists ax|].
  exists z, b. split; [done|]. split; [done|].
  eapply (apart_by (reduces RMean) (reduced_or_nan RMean) all_mean y y' group h a ax l gs); try done.
  - intros ns m m'. apply reduced_or_nan_fun. unfold spans. tauto.
  - intros ns ms ->. eexists. split; [|done]. unfold reduced_or_nan. by case_decide.
Qed.
Theorem apart_median y y' group h a ax l gs : valid y -> numeric_larry y -> valid y' -> nonempty y' -> numeric_larry y' -> valid group -> length (llabel group) = 1 ->
  axis_is y a ax -> llabel y !! ax = Some l -> groups_of group l gs -> groups_sortable gs -> group_part group h ax y y' ->
  exists z b, larry_group_median y (Some group) a = Ok z /\ larry_reduce RMedian y' (Some a) = Ok b /\ spread_over y' ax z b.
Proof.
  intros Hv Hn Hv' Hne' Hn' Vg Ng Hax Hl Hg Hs HP. assert (Ha' : arithmetic (ldtype y')) by (destruct Hn' as [-> | ->]; unfold arithmetic; tauto).
  pose proof (part_axis _ _ _ _ _ _ HP Hax) as Hax'.
  destruct (C44_median y group a ax l gs) as (z & Ez & HL); try done. destruct (C33_reduce_succeeds RMedian y' (Some a)) as (b & Eb & Rb); try done; [by exists ax|].
  exists z, b. split; [done|]. split; [done|].
  eapply (apart_by (reduces RMedian) (reduced_or_nan RMedian) all_median y y' group h a ax l gs); try done.
  - intros ns m m'. apply reduced_or_nan_fun. unfold spans. tauto.
Qed.
Theorem apart_ranking ndtri y y' group h a ax l gs : valid y -> numeric_larry y -> valid y' -> numeric_larry y' -> valid group -> length (llabel group) = 1 ->
  axis_is y a ax -> llabel y !! ax = Some l -> groups_of group l gs -> groups_sortable gs -> group_part group h ax y y' ->
  exists z z', larry_group_ranking y (Some group) a = Ok z /\ larry_ranking ndtri y' (Some a) NormOne = Ok z' /\ same_where_kept z z'.
Proof.
  intros Hv Hn Hv' Hn' Vg Ng Hax Hl Hg Hs HP. pose proof (part_axis _ _ _ _ _ _ HP Hax) as Hax'.
  destruct (C44_ranking y group a ax l gs) as (z & Ez & HL); try done. destruct (C41_succeeds ndtri y' (Some a) NormOne) as (z' & Ez'); try done; [by exists ax|].
  exists z, z'. split; [done|]. split; [done|]. destruct (C41_ranks _ _ _ _ Hv' Ez') as (V2 & D2 & L2 & ax2 & X2 & H2). assert (ax2 = ax) as -> by (by eapply axis_is_fun).
  intros ls Hgr. rewrite L2 in Hgr. destruct (part_lane ranked y y' group h a ax l gs z ls) as (l' & vs' & ns' & ms' & Hl' & Hvs' & Hns' & HR & Fz); try done.
  destruct (H2 (delete ax ls)) as (vs2 & ns2 & ms2 & Hvs2 & Hns2 & (l2 & Hl2 & F2) & HR2); [by apply Forall2_delete|].
  assert (vs2 = vs') as -> by (by eapply lane_fun). assert (ns2 = ns') as -> by (by eapply numbers_unique). assert (ms2 = ms') as -> by (by eapply ranked_fun).
  assert (l2 = l') as -> by congruence. destruct (in_grid_lookup _ _ _ _ Hgr Hl') as (x & Ex & [i Hx]%elem_of_list_lookup).
  destruct (Forall2_lookup_l _ _ _ _ _ Fz Hx) as (w & Hw & Hc). destruct (Forall2_lookup_l _ _ _ _ _ F2 Hx) as (w2 & Hw2 & Hc2).
  rewrite (with_label_delete _ _ _ Ex) in Hc, Hc2. congruence.
Qed.
