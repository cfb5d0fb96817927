(** C106: the order of reductions, cumulative sums and moving window statistics. *)
From Verif Require Import NumFacts RankLarry MoveFacts SummaryFacts TwiceFacts LaneFacts SpecFacts StepsFacts MovingFacts FarrayFacts PropsNumeric PropsMove PropsMoving.
From Verif Require Import Numeric.
From Verif Require Import BoundsFacts Bounds2Facts MonoFacts.
Local Open Scope nat_scope.

Definition val_at_most (u v : val) : Prop := exists m n, to_num u = Some m /\ to_num v = Some n /\ at_most m n.
Lemma present_at_most ns ns' : Forall2 at_most ns ns' -> Forall2 num_le (present ns) (present ns').
Proof.
  induction 1 as [|m n ns ns' H _ IH]; [constructor|]. unfold present in *. rewrite !filter_cons. destruct H as [[-> ->]|H].
  - by rewrite !decide_False by naive_solver.
  - destruct (decide (m <> NaN)) as [Hm|Hm]; [|exfalso; apply Hm; intros ->; by apply num_le_nan_l in H].
    destruct (decide (n <> NaN)) as [Hn|Hn]; [|exfalso; apply Hn; intros ->; by apply num_le_nan_r in H]. by constructor.
Qed.
Lemma numbers_at_most vs vs' ns ns' : Forall2 val_at_most vs vs' -> numbers vs ns -> numbers vs' ns' -> Forall2 at_most ns ns'.
Proof.
  intros H. revert ns ns'. induction H as [|u v vs vs' (m & n & Hm & Hn & H) _ IH]; intros ns ns' N1 N2; inversion N1; inversion N2; subst; [constructor|].
  constructor; [congruence|by apply IH].
Qed.
Definition quiet (op : red_op) (vs vs' : list val) : Prop :=
  (op = RMin \/ op = RMax) \/ ordered_op op /\ forall v n, v ∈ vs \/ v ∈ vs' -> to_num v = Some n -> is_inf n = false.
Lemma quiet_finite vs ns : numbers vs ns -> (forall v n, v ∈ vs -> to_num v = Some n -> is_inf n = false) -> Forall (fun n => is_finite n = true) (present ns).
Proof.
  intros HN H. apply Forall_forall. intros n Hn. apply (elem_present _ _ _ HN) in Hn as (Hne & u & Hu & E). pose proof (H _ _ Hu E). by destruct n.
Qed.
Lemma reduces_mono op ws vs vs' u u' : ws ≡ₚ vs -> Forall2 val_at_most ws vs' -> quiet op ws vs' -> reduces op vs u -> reduces op vs' u' -> val_at_most u u'.
Proof.
  intros Hp HF Hq. assert (statistic op) as Hs by (destruct Hq as [[-> | ->]|[[->|[->| ->]] _]]; done).
  intros (ns & m & N & T & P)%reduces_num (ns' & m' & N' & T' & P')%reduces_num; try done. exists m, m'. split_and!; try done.
  symmetry in Hp. destruct (Forall2_perm_r (fun n v => to_num v = Some n) ns vs ws) as (ks & Ek & HK); [done|by apply Forall2_flip in N|].
  apply Forall2_flip in HK. fold (numbers ws ks) in HK.
  pose proof (numbers_at_most _ _ _ _ HF HK N') as HA. apply present_at_most in HA.
  assert (Ep : present ks ≡ₚ present ns) by (unfold present; by rewrite Ek).
  pose proof (Forall2_length _ _ _ HA) as Hlen. rewrite (Permutation_length Ep) in Hlen.
  destruct (decide (present ns' = [])) as [E|E].
  - rewrite decide_True in P by (apply nil_length_inv; by rewrite Hlen, E). left. by subst.
  - rewrite decide_False in P. 2: { intros E'. apply E, nil_length_inv. by rewrite <-Hlen, E'. }
    right. eapply (reduced_mono op); [exact Ep|done|done| |done|done].
    destruct Hq as [Hq|[Hq Hf]]; [by left|right]. split_and!; [done|eapply quiet_finite; [exact HK|]|eapply quiet_finite; [exact N'|]]; intros v n Hv; apply Hf; auto.
Qed.
Definition quiet_larrys (op : red_op) (y z : larry) : Prop := (op = RMin \/ op = RMax) \/ ordered_op op /\ no_inf y /\ no_inf z.
Lemma no_inf_num y ls v n : no_inf y -> cell y ls = Some v -> to_num v = Some n -> is_inf n = false.
Proof. intros H Hc E. destruct v; simpl in E; simplify_eq; try done. by eapply H. Qed.
Lemma lane_elem y ax ls vs v : lane_of y ax ls vs -> v ∈ vs -> exists ls', cell y ls' = Some v.
Proof. intros (l & _ & H) [i Hi]%elem_of_list_lookup. destruct (Forall2_lookup_r _ _ _ _ _ H Hi) as (x & _ & Hc). by eexists. Qed.
Lemma lane_at_most y z ax ls vs vs' : larry_at_most y z -> in_grid (delete ax (llabel y)) ls -> lane_of y ax ls vs -> lane_of z ax ls vs' -> Forall2 val_at_most vs vs'.
Proof.
  intros [HL HC] Hg (l & Hl & H) (l' & Hl' & H'). assert (l' = l) as -> by congruence.
  assert (HX : forall x, x ∈ l -> in_grid (llabel y) (with_label ax x ls)) by (intros x Hx; by eapply with_label_grid).
  clear Hl Hl'. revert vs' H'. induction H as [|x v l vs Hx H IH]; intros vs' H'; inversion H' as [|? v' ? vs1 Hv']; subst; [constructor|]. constructor.
  - destruct (HC (with_label ax x ls)) as (u & w & m & n & Hu & Hw & Em & En & Hmn); [apply HX; left|].
    exists m, n. split_and!; [congruence|congruence|done].
  - apply IH; [|done]. intros x' Hx'. apply HX. by right.
Qed.
Lemma values_at_most y z vs vs' : larry_at_most y z -> values_of y vs -> values_of z vs' -> exists ws, ws ≡ₚ vs /\ Forall2 val_at_most ws vs' /\ values_of y ws.
Proof.
  intros [HL HC] (ts & Hn & Ht & H) (ts' & Hn' & Ht' & H'). apply Forall2_flip in H.
  assert (Hp : ts ≡ₚ ts'). { apply NoDup_Permutation; [done|done|]. intros ls. by rewrite Ht, Ht', HL. }
  destruct (Forall2_perm_r _ _ _ _ Hp H) as (ws & Ew & HW). exists ws. split; [done|]. apply Forall2_flip in HW. split.
  - assert (HX : forall ls, ls ∈ ts' -> in_grid (llabel y) ls) by (intros ls Hls; rewrite HL; by apply Ht').
    clear -HW H' HX HC. revert vs' H'. induction HW as [|ls w ts ws Hw _ IH]; intros vs' H'; inversion H' as [|? v' ? vs1 Hv']; subst; [constructor|]. constructor.
    + destruct (HC ls) as (u & w' & m & n & Hu & Hw' & Em & En & Hmn); [apply HX; left|]. exists m, n. split_and!; [congruence|congruence|done].
    + apply IH; [|done]. intros x' Hx'. apply HX. by right.
  - exists ts'. split_and!; [done| |done]. intros ls. by rewrite Ht', HL.
Qed.
Lemma axis_is_same y z a ax : llabel y = llabel z -> axis_is y a ax -> axis_is z a ax.
Proof. unfold axis_is. by intros ->. Qed.
Lemma reduction_at_most op y z axis a b : valid y -> larry_at_most y z -> quiet_larrys op y z -> reduction_of op y axis a -> reduction_of op z axis b -> out_at_most a b.
Proof.
  intros Hv HA Hq. pose proof HA as [HL HC]. unfold reduction_of, reduction_by. destruct axis as [k|].
  - intros (ax & Hax & A1 & A2) (ax2 & Hax2 & B1 & B2).
    assert (ax2 = ax) as -> by (eapply axis_is_fun; [exact Hax2|by eapply axis_is_same]).
    assert (HQ : forall ls vs vs', lane_of y ax ls vs -> lane_of z ax ls vs' -> quiet op vs vs').
    { intros ls vs vs' H H'. destruct Hq as [Hq|(Hq & I1 & I2)]; [by left|right]. split; [done|].
      intros v n [Hin|Hin] E; [destruct (lane_elem _ _ _ _ _ H Hin) as [? Hc]; exact (no_inf_num _ _ _ _ I1 Hc E)|destruct (lane_elem _ _ _ _ _ H' Hin) as [? Hc]; exact (no_inf_num _ _ _ _ I2 Hc E)]. }
    destruct (decide (length (llabel y) = 1)) as [E|E].
    + destruct (A1 E) as (vs1 & u & -> & V1 & R1). destruct B1 as (vs2 & v & -> & V2 & R2); [congruence|].
      assert (Hg : in_grid (delete ax (llabel y)) []).
      { destruct Hax as [Hax _]. destruct (llabel y) as [|l [|? ?]]; simpl in *; try lia. assert (ax = 0) as -> by lia. constructor. }
      eapply reduces_mono; [reflexivity|by eapply lane_at_most|by eapply HQ|done|done].
    + assert (1 < length (llabel y)) as E'. { destruct Hax as [Hax _]. lia. }
      destruct (A2 E') as (z1 & -> & V1 & L1 & R1). destruct B2 as (z2 & -> & V2 & L2 & R2); [congruence|].
      simpl. split; [congruence|]. intros ls Hg. destruct (R1 ls Hg) as (vs1 & u & K1 & D1 & S1).
      destruct (R2 ls) as (vs2 & v & K2 & D2 & S2); [by rewrite L2, <-HL, <-L1|].
      destruct (reduces_mono op vs1 vs1 vs2 u v) as (m & n & Em & En & Hmn); [reflexivity|eapply lane_at_most; [done| |done|done]; by rewrite <-L1|by eapply HQ|done|done|].
      eauto 10.
  - intros (vs1 & u & -> & V1 & R1) (vs2 & v & -> & V2 & R2). simpl.
    destruct (values_at_most y z vs1 vs2) as (ws & Ew & HF & HW); try done.
    eapply (reduces_mono op ws); [done|done| |done|done].
    destruct Hq as [Hq|(Hq & I1 & I2)]; [by left|right]. split; [done|].
    intros w n [Hin|Hin] E; [apply (values_elem _ _ _ HW) in Hin as (ls & _ & Hc); exact (no_inf_num _ _ _ _ I1 Hc E)|apply (values_elem _ _ _ V2) in Hin as (ls & _ & Hc); exact (no_inf_num _ _ _ _ I2 Hc E)].
Qed.
Theorem reduce_at_most op y z axis : valid y -> valid z -> nonempty y -> arithmetic (ldtype y) -> arithmetic (ldtype z) -> axis_ok y axis ->
  larry_at_most y z -> quiet_larrys op y z ->
  exists a b, larry_reduce op y axis = Ok a /\ larry_reduce op z axis = Ok b /\ out_at_most a b.
Proof.
  intros Hv Hv' Hne Ha Ha' Hax HA Hq. assert (op <> RProd) as Hop by (destruct Hq as [[-> | ->]|[[->|[->| ->]] _]]; done). pose proof HA as [HL _].
  destruct (C33_reduce_succeeds op y axis) as (a & Ea & Ra); try done.
  destruct (C33_reduce_succeeds op z axis) as (b & Eb & Rb); try done.
  { unfold nonempty. by rewrite <-HL. } { destruct axis as [k|]; [|done]. destruct Hax as [ax Hax]. exists ax. by eapply axis_is_same. }
  exists a, b. split; [done|]. split; [done|]. exact (reduction_at_most op y z axis a b Hv HA Hq Ra Rb).
Qed.

Lemma two_lanes (P Q : list num -> list num -> Prop) y y' a z z' :
  valid y -> larry_at_most y y' -> lanes_related P y (Some a) z -> lanes_related Q y' (Some a) z' ->
  (forall ax ls vs vs' ns ns' ms ms', lane_of y ax ls vs -> lane_of y' ax ls vs' -> numbers vs ns -> numbers vs' ns' -> Forall2 at_most ns ns' -> P ns ms -> Q ns' ms' ->
     forall i, i < length ns -> exists m n, ms !! i = Some m /\ ms' !! i = Some n /\ at_most m n) ->
  larry_at_most z z'.
Proof.
  intros Hv HA (V1 & _ & L1 & ax & Hax & H1) (V2 & _ & L2 & ax2 & Hax2 & H2) HP. pose proof HA as [HL HC].
  assert (ax2 = ax) as -> by (eapply axis_is_fun; [exact Hax2|by eapply axis_is_same]).
  split; [congruence|]. rewrite L1. intros ls Hg.
  assert (exists l, llabel y !! ax = Some l) as [l Hl]. { apply lookup_lt_is_Some. apply Hax. }
  assert (HN : NoDup l). { apply valid_nodup in Hv. by eapply Forall_lookup_1 in Hv. }
  assert (Hg' : in_grid (delete ax (llabel y)) (delete ax ls)) by (by apply Forall2_delete).
  destruct (H1 _ Hg') as (vs & ns & m1 & Hvs & Hns & Hm1 & R1).
  destruct (H2 (delete ax ls)) as (vs' & ns' & m2 & Hvs' & Hns' & Hm2 & R2); [by rewrite <-HL|].
  destruct (lane_at y z ax l ls vs m1) as (x & i & Hx & Hi & Hlen & Hu & C1); try done.
  destruct (lane_at y' z' ax l ls vs' m2) as (x2 & i2 & Hx2 & Hi2 & _ & _ & C2); try done; [by rewrite <-HL|by rewrite <-HL|].
  assert (x2 = x) as -> by congruence. rewrite (Hu HN i2 Hi2) in *.
  destruct (HP ax _ vs vs' ns ns' m1 m2 Hvs Hvs' Hns Hns') with (i := i) as (n1 & n2 & N1 & N2 & B); try done.
  { eapply numbers_at_most; [|done|done]. by eapply lane_at_most. } { by rewrite <-(Forall2_length _ _ _ Hns). }
  exists (VFloat n1), (VFloat n2), n1, n2. split_and!; eauto.
Qed.
Lemma window_at_most w e k ns ns' : Forall2 at_most ns ns' -> Forall2 at_most (window_at w e k ns) (window_at w e k ns').
Proof. intros H. unfold window_at. by repeat first [apply Forall2_take | apply Forall2_drop]. Qed.
Lemma part_finite vs ns k j : numbers vs ns -> (forall v n, v ∈ vs -> to_num v = Some n -> is_inf n = false) ->
  Forall (fun n => is_finite n = true) (present (take k (drop j ns))) /\ no_infinity (take k ns).
Proof.
  intros HN H. assert (HI : forall n, n ∈ ns -> is_inf n = false).
  { intros n [i Hi]%elem_of_list_lookup. destruct (Forall2_lookup_r _ _ _ _ _ HN Hi) as (v & Hv & E). eapply H; [|done]. by eapply elem_of_list_lookup_2. }
  split.
  - apply Forall_forall. intros n [Hn Hin]%elem_of_list_filter. assert (n ∈ ns) as Hin'.
    { rewrite <-(take_drop j ns). apply elem_of_app. right. rewrite <-(take_drop k (drop j ns)). apply elem_of_app. by left. }
    pose proof (HI _ Hin'). by destruct n.
  - intros n Hn. apply HI. rewrite <-(take_drop k ns). apply elem_of_app. by left.
Qed.
Lemma reduced_or_nan_mono op ns ns' m m' : Forall2 at_most ns ns' ->
  (op = RMin \/ op = RMax) \/ ordered_op op /\ Forall (fun n => is_finite n = true) (present ns) /\ Forall (fun n => is_finite n = true) (present ns') ->
  reduced_or_nan op ns m -> reduced_or_nan op ns' m' -> at_most m m'.
Proof.
  intros HA%present_at_most Hq. unfold reduced_or_nan. pose proof (Forall2_length _ _ _ HA) as Hlen. intros P P'.
  destruct (decide (present ns' = [])) as [E|E].
  - rewrite decide_True in P by (apply nil_length_inv; by rewrite Hlen, E). left. by subst.
  - rewrite decide_False in P. 2: { intros E'. apply E, nil_length_inv. by rewrite <-Hlen, E'. }
    right. by eapply (reduced_mono op).
Qed.
Lemma lane_quiet y ax ls vs : no_inf y -> lane_of y ax ls vs -> forall v n, v ∈ vs -> to_num v = Some n -> is_inf n = false.
Proof. intros I1 H v n Hin E. destruct (lane_elem _ _ _ _ _ H Hin) as [? Hc]. exact (no_inf_num _ _ _ _ I1 Hc E). Qed.
Theorem moving_at_most op y z w a ax l : valid y -> valid z -> numeric_larry y -> numeric_larry z -> axis_is y a ax -> llabel y !! ax = Some l -> (1 <= w <= Z.of_nat (length l))%Z ->
  larry_at_most y z -> op = MMin \/ op = MMax \/ op = MMean /\ no_inf y /\ no_inf z ->
  exists b c, larry_move op y w (Some a) = Ok b /\ larry_move op z w (Some a) = Ok c /\ larry_at_most b c.
Proof.
  intros Hv Hv' Hn Hn' Hax Hl Hw HA Hop. pose proof HA as [HL _]. assert (Hax' : axis_is z a ax) by (by eapply axis_is_same). assert (Hl' : llabel z !! ax = Some l) by (by rewrite <-HL).
  destruct Hop as [->|[->|(-> & I1 & I2)]].
  - destruct (C82_min y w a ax l) as (b & Eb & H1); try done. destruct (C82_min z w a ax l) as (c & Ec & H2); try done.
    exists b, c. do 2 (split; [done|]). refine (two_lanes _ _ y z a b c Hv HA H1 H2 _).
    intros ax' ls vs vs' ns ns' ms ms' _ _ _ _ HF [_ R1] [_ R2] i Hi.
    destruct (R1 i Hi) as (n1 & N1 & P1). destruct (R2 i) as (n2 & N2 & P2). { by rewrite <-(Forall2_length _ _ _ HF). }
    exists n1, n2. do 2 (split; [done|]). destruct (decide (i + 1 < Z.to_nat w)); [by left|]. eapply reduced_or_nan_mono; [by apply window_at_most| |exact P1|exact P2]. by do 2 left.
  - destruct (C82_max y w a ax l) as (b & Eb & H1); try done. destruct (C82_max z w a ax l) as (c & Ec & H2); try done.
    exists b, c. do 2 (split; [done|]). refine (two_lanes _ _ y z a b c Hv HA H1 H2 _).
    intros ax' ls vs vs' ns ns' ms ms' _ _ _ _ HF [_ R1] [_ R2] i Hi.
    destruct (R1 i Hi) as (n1 & N1 & P1). destruct (R2 i) as (n2 & N2 & P2). { by rewrite <-(Forall2_length _ _ _ HF). }
    exists n1, n2. do 2 (split; [done|]). destruct (decide (i + 1 < Z.to_nat w)); [by left|]. eapply reduced_or_nan_mono; [by apply window_at_most| |exact P1|exact P2]. left. by right.
  - destruct (C82_mean_partial y w a ax l) as (b & Eb & H1); try done. destruct (C82_mean_partial z w a ax l) as (c & Ec & H2); try done.
    exists b, c. do 2 (split; [done|]). refine (two_lanes _ _ y z a b c Hv HA H1 H2 _).
    intros ax' ls vs vs' ns ns' ms ms' K1 K2 N1 N2 HF [_ R1] [_ R2] i Hi.
    pose proof (lane_quiet _ _ _ _ I1 K1) as Q1. pose proof (lane_quiet _ _ _ _ I2 K2) as Q2.
    destruct (R1 i Hi) as (n1 & E1 & P1). destruct (R2 i) as (n2 & E2 & P2). { by rewrite <-(Forall2_length _ _ _ HF). }
    exists n1, n2. do 2 (split; [done|]). destruct (decide (i + 1 < Z.to_nat w)); [by left|].
    eapply (reduced_or_nan_mono RMean); [by apply window_at_most| |apply P1, (part_finite vs ns _ 0 N1 Q1)|apply P2, (part_finite vs' ns' _ 0 N2 Q2)].
    right. split; [by right; left|]. split; [apply (part_finite vs ns _ _ N1 Q1)|apply (part_finite vs' ns' _ _ N2 Q2)].
Qed.
Theorem moving_median_at_most layout method y z w a ax l : good_layout layout -> valid y -> valid z -> numeric_larry y -> numeric_larry z -> axis_is y a ax -> llabel y !! ax = Some l ->
  (1 <= w <= Z.of_nat (length l))%Z -> method = MLoop \/ method = MStrides /\ length (llabel y) <= 3 -> larry_at_most y z -> no_inf y -> no_inf z ->
  exists b c, larry_move_median layout y w (Some a) method = Ok b /\ larry_move_median layout z w (Some a) method = Ok c /\ larry_at_most b c.
Proof.
  intros Hlay Hv Hv' Hn Hn' Hax Hl Hw Hm HA I1 I2. pose proof HA as [HL _]. assert (Hax' : axis_is z a ax) by (by eapply axis_is_same). assert (Hl' : llabel z !! ax = Some l) by (by rewrite <-HL).
  destruct (C40_median layout y w a ax l method) as (b & Eb & H1); try done. destruct (C40_median layout z w a ax l method) as (c & Ec & H2); try done; [by rewrite <-HL|].
  exists b, c. do 2 (split; [done|]). refine (two_lanes _ _ y z a b c Hv HA H1 H2 _).
  intros ax' ls vs vs' ns ns' ms ms' K1 K2 N1 N2 HF [_ R1] [_ R2] i Hi.
  pose proof (lane_quiet _ _ _ _ I1 K1) as Q1. pose proof (lane_quiet _ _ _ _ I2 K2) as Q2.
  destruct (R1 i Hi) as (n1 & E1 & P1). destruct (R2 i) as (n2 & E2 & P2). { by rewrite <-(Forall2_length _ _ _ HF). }
  exists n1, n2. do 2 (split; [done|]). destruct (decide (i + 1 < Z.to_nat w)); [by left|].
  eapply (reduced_or_nan_mono RMedian); [by apply window_at_most| |exact P1|exact P2].
  right. split; [by right; right|]. split; [apply (part_finite vs ns _ _ N1 Q1)|apply (part_finite vs' ns' _ _ N2 Q2)].
Qed.
Lemma sum_at_most ns ns' k : Forall2 at_most ns ns' -> Forall (fun n => is_finite n = true) (present (take k ns)) -> Forall (fun n => is_finite n = true) (present (take k ns')) ->
  num_le (num_total (present (take k ns))) (num_total (present (take k ns'))).
Proof.
  intros H F1 F2. assert (HA : Forall2 at_most (take k ns) (take k ns')) by (by apply Forall2_take). apply present_at_most in HA.
  destruct (finite_le _ _ F1 F2 HA) as (ps & qs & -> & -> & HQ). rewrite !total_fin. apply num_le_Fin. by apply sums_le.
Qed.
Theorem cumsum_at_most y z a ax : valid y -> valid z -> arithmetic (ldtype y) -> arithmetic (ldtype z) -> axis_is y a ax -> larry_at_most y z -> no_inf y -> no_inf z ->
  exists b c, larry_cum CSum y (Some a) = Ok b /\ larry_cum CSum z (Some a) = Ok c /\ larry_at_most b c.
Proof.
  intros Hv Hv' Ha Ha' Hax HA I1 I2. pose proof HA as [HL _]. assert (Hax' : axis_is z a ax) by (by eapply axis_is_same).
  destruct (C32_cum_succeeds CSum y a ax) as [b Eb]; try done. destruct (C32_cum_succeeds CSum z a ax) as [c Ec]; try done. exists b, c. do 2 (split; [done|]).
  apply C32_cum in Eb as (a1 & ax1 & [= <-] & X1 & _ & V1 & L1 & H1); [|done]. apply C32_cum in Ec as (a2 & ax2 & [= <-] & X2 & _ & V2 & L2 & H2); [|done].
  assert (ax1 = ax) as -> by (by eapply axis_is_fun). assert (ax2 = ax) as -> by (by eapply axis_is_fun).
  split; [congruence|]. rewrite L1. intros ls Hg.
  destruct (H1 ls Hg) as (vs & k & v & (K1 & l & x & G1 & G2 & G3) & D1 & ns & n & m & N1 & E1 & T1 & M1).
  destruct (H2 ls) as (vs' & k' & v' & (K2 & l' & x' & G1' & G2' & G3') & D2 & ns' & n' & m' & N2 & E2 & T2 & M2); [by rewrite <-HL|].
  assert (l' = l) as -> by congruence. assert (x' = x) as -> by congruence.
  assert (k' = k) as ->. { apply valid_nodup in Hv. eapply Forall_lookup_1 in Hv; [|done]. by eapply NoDup_lookup. }
  exists v, v', m, m'. do 4 (split; [done|]).
  assert (HF : Forall2 at_most ns ns'). { eapply numbers_at_most; [|done|done]. eapply lane_at_most; [done| |done|done]. by apply Forall2_delete. }
  pose proof (Forall2_lookup_lr _ _ _ _ _ _ HF E1 E2) as Hn.
  destruct (decide (n = NaN)) as [->|Hnn].
  - destruct Hn as [[_ ->]|Hn]; [|by apply num_le_nan_l in Hn]. rewrite decide_True in M2 by done. by left.
  - destruct Hn as [[-> _]|Hn]; [done|]. rewrite decide_False in M2. 2: { intros ->. by apply num_le_nan_r in Hn. }
    subst. right. apply sum_at_most; [done|apply (part_finite vs ns _ 0 N1 (lane_quiet _ _ _ _ I1 K1))|apply (part_finite vs' ns' _ 0 N2 (lane_quiet _ _ _ _ I2 K2))].
Qed.
Theorem extremes_at_most op y z axis : op = RMin \/ op = RMax ->
  valid y -> valid z -> nonempty y -> arithmetic (ldtype y) -> arithmetic (ldtype z) -> axis_ok y axis -> larry_at_most y z ->
  exists a b, larry_reduce op y axis = Ok a /\ larry_reduce op z axis = Ok b /\ out_at_most a b.
Proof. intros Hop. intros. apply reduce_at_most; try done. by left. Qed.
Theorem averages_at_most op y z axis : op = RSum \/ op = RMean \/ op = RMedian ->
  valid y -> valid z -> nonempty y -> arithmetic (ldtype y) -> arithmetic (ldtype z) -> axis_ok y axis -> larry_at_most y z -> no_inf y -> no_inf z ->
  exists a b, larry_reduce op y axis = Ok a /\ larry_reduce op z axis = Ok b /\ out_at_most a b.
Proof. intros Hop. intros. apply reduce_at_most; try done. by right. Qed.
Theorem infinity_needed :
  exists y z, valid y /\ valid z /\ nonempty y /\ ldtype y = DFloat /\ ldtype z = DFloat /\ larry_at_most y z /\
    forall op, op = RSum \/ op = RMean \/ op = RMedian ->
    larry_reduce op y None = Ok (OVal (VFloat NaN)) /\ larry_reduce op z None = Ok (OVal (VFloat PInf)).
Proof.
  exists (Larry (Nda DFloat (Arr [2] (VFloat <$> [NInf; PInf]))) [[LInt 0; LInt 1]]), (Larry (Nda DFloat (Arr [2] (VFloat <$> [PInf; PInf]))) [[LInt 0; LInt 1]]).
  split; [solve_valid|]. split; [solve_valid|]. split; [by repeat constructor|]. split; [done|]. split; [done|]. split.
  - split; [done|]. intros ls Hg. apply Forall2_cons_inv_r in Hg as (x & ls' & Hx & H0 & ->). apply Forall2_nil_inv_r in H0 as ->.
    unfold at_most. repeat (apply elem_of_cons in Hx as [->|Hx]); [..|by apply elem_of_nil in Hx]; eexists _, _, _, _; (split; [by vm_compute|]); (split; [by vm_compute|]); (split; [done|]); (split; [done|]).
    + right. by left.
    + right. by right.
  - intros op [->|[->| ->]]; by vm_compute.
Qed.
