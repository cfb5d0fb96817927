(** C109: all labels in one group, and every label in a group of its own. *)
From Verif Require Import NumFacts RankFacts RankLarry MoveFacts SummaryFacts TwiceFacts LaneFacts SpecFacts StepsFacts MovingFacts FarrayFacts ReorderFacts RefineOut LarryFacts PropsLarry PropsNumeric PropsFarray PropsGroup.
From Verif Require Import Numeric.
From Verif Require Import Bounds2Facts Mono2Facts SpanFacts Span2Facts.
From Verif Require Export SpecOneGroup.

Lemma members_all {A} g gs (xs : list A) : length gs = length xs -> (forall g', g' ∈ gs -> group_eq g g') -> members g gs xs = xs.
Proof.
  unfold members. revert xs. induction gs as [|h gs IH]; intros [|x xs] Hl H; try done. simpl zip. rewrite filter_cons_True by (simpl; apply H; by left).
  rewrite fmap_cons. simpl. f_equal. apply IH; [simpl in Hl; lia|]. intros g' Hg. apply H. by right.
Qed.
Lemma members_none {A} g gs (xs : list A) : (forall g', g' ∈ gs -> ~ group_eq g g') -> members g gs xs = [].
Proof.
  unfold members. revert xs. induction gs as [|h gs IH]; intros [|x xs] H; try done. simpl zip. rewrite filter_cons_False by (simpl; apply H; by left).
  apply IH. intros g' Hg. apply H. by right.
Qed.
Lemma members_own {A} gs (xs : list A) k g x : own_groups gs -> gs !! k = Some g -> xs !! k = Some x -> members g gs xs = [x].
Proof.
  revert xs k. induction gs as [|h gs IH]; intros [|x0 xs] k [H1 H2] Hg Hx; try done. unfold members. simpl zip. destruct k as [|k].
  - simpl in Hg, Hx. simplify_eq. rewrite filter_cons_True by (simpl; apply H1; by left). rewrite fmap_cons. simpl. f_equal. apply (members_none g gs xs).
    intros g' [j Hj]%elem_of_list_lookup Hq. by specialize (H2 0 (S j) g g' eq_refl Hj Hq).
  - simpl in Hg, Hx. rewrite filter_cons_False.
    + apply (IH xs k); [|done..]. split; [intros g' Hg'; apply H1; by right|]. intros i j a b Hi Hj Hq. by specialize (H2 (S i) (S j) a b Hi Hj Hq) as [= ->].
    + simpl. intros Hq. by specialize (H2 (S k) 0 g h Hg eq_refl Hq).
Qed.
Lemma within_same R gs ns ms : all_one_group gs -> length gs = length ns -> ns <> [] -> within_groups R gs ns ms -> R ns ms.
Proof.
  intros Hs Hl Hne (Hm & H & _). destruct gs as [|g gs]; [by destruct ns|]. assert (Hg : g ∈ g :: gs) by left. specialize (H g Hg (Hs _ _ Hg Hg)).
  rewrite !members_all in H; auto. congruence.
Qed.
Lemma within_own R gs ns ms k n : own_groups gs -> length gs = length ns -> within_groups R gs ns ms -> ns !! k = Some n -> exists m, ms !! k = Some m /\ R [n] [m].
Proof.
  intros Ho Hl (Hm & H & _) Hn. assert (Hk : k < length ns) by (by eapply lookup_lt_Some).
  destruct (lookup_lt_is_Some_2 ms k) as (m & Em); [lia|]. destruct (lookup_lt_is_Some_2 gs k) as (g & Eg); [lia|].
  exists m. split; [done|]. assert (Hg : g ∈ gs) by (by eapply elem_of_list_lookup_2). specialize (H g Hg (proj1 Ho g Hg)).
  by rewrite (members_own gs ns k g n), (members_own gs ms k g m) in H.
Qed.
Lemma same_sortable gs : all_one_group gs -> groups_sortable gs.
Proof.
  intros H. destruct gs as [|g gs]; [left; by intros g Hg%elem_of_nil|]. assert (Hg : g ∈ g :: gs) by left.
  assert (HN : forall v w, group_eq v w -> (exists s, v = VStr s) -> exists s, w = VStr s). { intros v w Hq [s ->]. destruct w; simpl in Hq; eauto; by destruct Hq as (_ & ? & _). }
  assert (HM : forall v w, group_eq v w -> ~ (exists s, v = VStr s) -> is_Some (to_num w)).
  { intros v w Hq Hs. assert (to_num v = to_num w /\ to_num v <> None /\ to_num v <> Some NaN) as (E & E' & _) by (destruct v; try exact Hq; exfalso; eauto).
    rewrite <-E. by apply not_eq_None_Some. }
  assert (HD : (exists s, g = VStr s) \/ ~ exists s, g = VStr s). { destruct g; eauto; right; by intros [? [=]]. }
  destruct HD as [HD|HD]; [left|right]; intros g' Hg'; right; eauto.
Qed.

(** One group. *)
Lemma spread_by (Rv : list val -> val -> Prop) (R : list num -> num -> Prop) (Q : list num -> list num -> Prop) y a ax l gs z b : (forall ns m m', R ns m -> R ns m' -> m = m') ->
  (forall vs v, Rv vs v -> exists ns m, numbers vs ns /\ to_num v = Some m /\ R ns m) -> (forall ns ms, Q ns ms -> exists m, R ns m /\ ms = replicate (length ns) m) ->
  axis_is y a ax -> llabel y !! ax = Some l -> l <> [] -> length gs = length l -> all_one_group gs ->
  lanes_related (within_groups Q gs) y (Some a) z -> reduction_by Rv y (Some a) b -> spread y ax z b.
Proof.
  intros HF HRv HQ Hax Hl Hne Hgl Hs (Vz & Dz & Lz & ax' & Hax' & HL) Hb. assert (ax' = ax) as -> by (by eapply axis_is_fun).
  split_and!; try done. exists l. split; [done|]. intros ls x Hg [i Hx]%elem_of_list_lookup. destruct (HL ls Hg) as (vs & ns & ms & Hvs & Hns & Hms & HR).
  destruct Hvs as (l1 & Hl1 & Fvs). assert (l1 = l) as -> by congruence.
  assert (Hlen : length ns = length l). { rewrite <-(Forall2_length _ _ _ Hns). symmetry. by eapply Forall2_length. }
  apply within_same in HR; [|done|lia|intros ->; by destruct l]. destruct (HQ _ _ HR) as (m & Hm & ->).
  destruct Hms as (l2 & Hl2 & Fms). assert (l2 = l) as -> by congruence.
  destruct (Forall2_lookup_l _ _ _ _ _ Fms Hx) as (w & Hw & Hc). rewrite list_lookup_fmap, fmap_Some in Hw. destruct Hw as (n & [-> _]%lookup_replicate & ->).
  destruct (reduction_by_at Rv y a ax b ls vs Hax Hb Hg) as (v & Hv & Hr); [by exists l|].
  destruct (HRv vs v Hr) as (ns' & m' & Hns' & Hm' & HR'). assert (ns' = ns) as -> by (by eapply numbers_unique).
  exists m, v. split_and!; try done. rewrite Hm'. f_equal. by eapply HF.
Qed.
Lemma group_length group l gs : groups_of group l gs -> length gs = length l.
Proof. intros H. symmetry. by eapply Forall2_length. Qed.
Lemma axis_nonempty y ax l : nonempty y -> llabel y !! ax = Some l -> l <> [].
Proof. intros Hne Hl. unfold nonempty in Hne. by eapply Forall_lookup_1 in Hne. Qed.
Theorem one_group_mean y group a ax l gs : valid y -> nonempty y -> numeric_larry y -> valid group -> length (llabel group) = 1 -> axis_is y a ax -> llabel y !! ax = Some l ->
  groups_of group l gs -> all_one_group gs ->
  exists z b, larry_group_mean y (Some group) a = Ok z /\ larry_reduce RMean y (Some a) = Ok b /\ spread y ax z b.
Proof.
  intros Hv Hne Hn Hvg Hg1 Hax Hl Hg Hs. assert (Ha : arithmetic (ldtype y)) by (destruct Hn as [-> | ->]; unfold arithmetic; tauto).
  destruct (C44_mean y group a ax l gs) as (z & Ez & HL); try done; [by apply same_sortable|].
  destruct (C33_reduce_succeeds RMean y (Some a)) as (b & Eb & Rb); try done; [by exists ax|].
  exists z, b. split_and!; try done. eapply (spread_by (reduces RMean) (reduced_or_nan RMean) all_mean); [| | |done|done|by eapply axis_nonempty|by eapply group_length|done..].
  - intros ns m m'. apply reduced_or_nan_fun. unfold spans. tauto.
  - intros vs v. apply spans_reduces. unfold spans. tauto.
  - intros ns ms ->. eexists. split; [|done]. unfold reduced_or_nan. by case_decide.
Qed.
Theorem one_group_median y group a ax l gs : valid y -> nonempty y -> numeric_larry y -> valid group -> length (llabel group) = 1 -> axis_is y a ax -> llabel y !! ax = Some l ->
  groups_of group l gs -> all_one_group gs ->
  exists z b, larry_group_median y (Some group) a = Ok z /\ larry_reduce RMedian y (Some a) = Ok b /\ spread y ax z b.
Proof.
  intros Hv Hne Hn Hvg Hg1 Hax Hl Hg Hs. assert (Ha : arithmetic (ldtype y)) by (destruct Hn as [-> | ->]; unfold arithmetic; tauto).
  destruct (C44_median y group a ax l gs) as (z & Ez & HL); try done; [by apply same_sortable|].
  destruct (C33_reduce_succeeds RMedian y (Some a)) as (b & Eb & Rb); try done; [by exists ax|].
  exists z, b. split_and!; try done. eapply (spread_by (reduces RMedian) (reduced_or_nan RMedian) all_median); [| | |done|done|by eapply axis_nonempty|by eapply group_length|done..].
  - intros ns m m'. apply reduced_or_nan_fun. unfold spans. tauto.
  - intros vs v. apply spans_reduces. unfold spans. tauto.
  - intros ns ms (m & Hm & ->). by exists m.
Qed.
Theorem one_group_ranking ndtri y group a ax l gs : valid y -> nonempty y -> numeric_larry y -> valid group -> length (llabel group) = 1 -> axis_is y a ax -> llabel y !! ax = Some l ->
  groups_of group l gs -> all_one_group gs ->
  exists z, larry_group_ranking y (Some group) a = Ok z /\ larry_ranking ndtri y (Some a) NormOne = Ok z.
Proof.
  intros Hv Hne Hn Hvg Hg1 Hax Hl Hg Hs.
  destruct (C44_ranking y group a ax l gs) as (z & Ez & HL); try done; [by apply same_sortable|].
  destruct (C41_succeeds ndtri y (Some a) NormOne) as (z' & Ez'); try done; [by exists ax|]. pose proof (C41_ranks _ _ _ _ Hv Ez') as HL'.
  exists z. split; [done|]. rewrite Ez'. f_equal. destruct HL as (V1 & D1 & L1 & ax1 & X1 & H1), HL' as (V2 & D2 & L2 & ax2 & X2 & H2).
  assert (ax1 = ax) as -> by (by eapply axis_is_fun). assert (ax2 = ax) as -> by (by eapply axis_is_fun).
  apply larry_ext; [done|done|congruence|congruence|]. rewrite L2. intros ls Hgr.
  assert (Hgr' : in_grid (delete ax (llabel y)) (delete ax ls)) by (by apply Forall2_delete).
  destruct (H1 _ Hgr') as (vs & ns & ms & Hvs & Hns & Hms & HR). destruct (H2 _ Hgr') as (vs' & ns' & ms' & Hvs' & Hns' & Hms' & HR').
  assert (vs' = vs) as -> by (by eapply lane_fun). assert (ns' = ns) as -> by (by eapply numbers_unique).
  assert (Hlen : length ns = length l). { rewrite <-(Forall2_length _ _ _ Hns). destruct Hvs as (l1 & Hl1 & Fvs). assert (l1 = l) as -> by congruence. symmetry. by eapply Forall2_length. }
  apply within_same in HR; [|done|rewrite (group_length _ _ _ Hg); lia|intros ->; destruct l; [|done]; by apply (axis_nonempty y ax [])].
  assert (ms' = ms) as -> by (by eapply ranked_fun).
  destruct (in_grid_lookup _ _ _ _ Hgr Hl) as (x & Ex & [i Hx]%elem_of_list_lookup).
  destruct Hms as (l1 & Hl1 & F1), Hms' as (l2 & Hl2 & F2). assert (l1 = l) as -> by congruence. assert (l2 = l) as -> by congruence.
  destruct (Forall2_lookup_l _ _ _ _ _ F1 Hx) as (w & Hw & Hc). destruct (Forall2_lookup_l _ _ _ _ _ F2 Hx) as (w' & Hw' & Hc').
  rewrite (with_label_delete _ _ _ Ex) in Hc, Hc'. congruence.
Qed.

(** Groups of one label. *)
Lemma own_by (Q : list num -> list num -> Prop) y a ax l gs z : valid y -> axis_is y a ax -> llabel y !! ax = Some l -> length gs = length l -> own_groups gs ->
  lanes_related (within_groups Q gs) y (Some a) z ->
  forall ls, in_grid (llabel y) ls -> exists v n m, cell y ls = Some v /\ to_num v = Some n /\ cell z ls = Some (VFloat m) /\ Q [n] [m].
Proof.
  intros Hv Hax Hl Hgl Ho (Vz & Dz & Lz & ax' & Hax' & HL) ls Hg. assert (ax' = ax) as -> by (by eapply axis_is_fun).
  destruct (in_grid_lookup _ _ _ _ Hg Hl) as (x & Ex & [i Hx]%elem_of_list_lookup).
  destruct (HL (delete ax ls)) as (vs & ns & ms & Hvs & Hns & Hms & HR); [by apply Forall2_delete|].
  destruct Hvs as (l1 & Hl1 & Fvs), Hms as (l2 & Hl2 & Fms). assert (l1 = l) as -> by congruence. assert (l2 = l) as -> by congruence.
  assert (Hlen : length ns = length l). { rewrite <-(Forall2_length _ _ _ Hns). symmetry. by eapply Forall2_length. }
  destruct (Forall2_lookup_l _ _ _ _ _ Fvs Hx) as (v & Hvi & Hc). destruct (Forall2_lookup_l _ _ _ _ _ Fms Hx) as (w & Hw & Hcw).
  rewrite list_lookup_fmap, fmap_Some in Hw. destruct Hw as (m & Hm & ->). rewrite (with_label_delete _ _ _ Ex) in Hc, Hcw.
  destruct (Forall2_lookup_l _ _ _ _ _ Hns Hvi) as (n & Hn & Ht). destruct (within_own Q gs ns ms i n) as (m' & Hm' & HQ); try done; [lia|].
  assert (m' = m) as -> by congruence. by exists v, n, m.
Qed.
Theorem own_group_mean y group a ax l gs : valid y -> numeric_larry y -> valid group -> length (llabel group) = 1 -> axis_is y a ax -> llabel y !! ax = Some l ->
  groups_of group l gs -> groups_sortable gs -> own_groups gs -> exists z, larry_group_mean y (Some group) a = Ok z /\ as_floats y z.
Proof.
  intros Hv Hn Hvg Hg1 Hax Hl Hg Hso Ho. destruct (C44_mean y group a ax l gs) as (z & Ez & HL); try done. exists z. split; [done|].
  pose proof (own_by _ _ _ _ _ _ _ Hv Hax Hl (group_length _ _ _ Hg) Ho HL) as H. destruct HL as (Vz & Dz & Lz & _). split_and!; try done.
  intros ls Hgr. destruct (H ls Hgr) as (v & n & m & Hc & Ht & Hz & HQ). exists v, n. split_and!; try done. rewrite Hz. do 2 f_equal.
  apply (reduced_one RMean); [unfold spans; tauto|]. unfold all_mean in HQ. simpl in HQ. injection HQ as ->. unfold reduced_or_nan. by case_decide.
Qed.
Theorem own_group_median y group a ax l gs : valid y -> numeric_larry y -> valid group -> length (llabel group) = 1 -> axis_is y a ax -> llabel y !! ax = Some l ->
  groups_of group l gs -> groups_sortable gs -> own_groups gs -> exists z, larry_group_median y (Some group) a = Ok z /\ as_floats y z.
Proof.
  intros Hv Hn Hvg Hg1 Hax Hl Hg Hso Ho. destruct (C44_median y group a ax l gs) as (z & Ez & HL); try done. exists z. split; [done|].
  pose proof (own_by _ _ _ _ _ _ _ Hv Hax Hl (group_length _ _ _ Hg) Ho HL) as H. destruct HL as (Vz & Dz & Lz & _). split_and!; try done.
  intros ls Hgr. destruct (H ls Hgr) as (v & n & m & Hc & Ht & Hz & m' & HQ & HE). exists v, n. split_and!; try done. rewrite Hz. do 2 f_equal.
  simpl in HE. assert (m' = m) as -> by congruence. by apply (reduced_one RMedian); [unfold spans; tauto|].
Qed.
Theorem own_group_ranking y group a ax l gs : valid y -> numeric_larry y -> valid group -> length (llabel group) = 1 -> axis_is y a ax -> llabel y !! ax = Some l ->
  groups_of group l gs -> groups_sortable gs -> own_groups gs -> exists z, larry_group_ranking y (Some group) a = Ok z /\ zero_where_present y z.
Proof.
  intros Hv Hn Hvg Hg1 Hax Hl Hg Hso Ho. destruct (C44_ranking y group a ax l gs) as (z & Ez & HL); try done. exists z. split; [done|].
  pose proof (own_by _ _ _ _ _ _ _ Hv Hax Hl (group_length _ _ _ Hg) Ho HL) as H. destruct HL as (Vz & Dz & Lz & _). split_and!; try done.
  intros ls Hgr. destruct (H ls Hgr) as (v & n & m & Hc & Ht & Hz & _ & HQ). exists v, n. split_and!; try done. rewrite Hz. do 2 f_equal.
  destruct (HQ 0 n eq_refl) as (m' & [= <-] & K). destruct (decide (n = NaN)) as [E|E]; [done|].
  unfold present in K. rewrite filter_cons_True in K by done. rewrite filter_nil in K. by rewrite decide_True in K.
Qed.
