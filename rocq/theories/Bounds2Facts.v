(** C105: bounds of reductions and of moving window statistics. *)
From Verif Require Import NumFacts RankLarry MoveFacts SummaryFacts LaneFacts SpecFacts StepsFacts MovingFacts PropsNumeric PropsMove PropsMoving.
From Verif Require Import Numeric.
From Verif Require Import BoundsFacts.
From Verif Require Export SpecBounds.

Lemma elem_present vs ns n : numbers vs ns -> n ∈ present ns <-> n <> NaN /\ exists u, u ∈ vs /\ to_num u = Some n.
Proof.
  intros H. unfold present. rewrite elem_of_list_filter. f_equiv. split.
  - intros [i Hi]%elem_of_list_lookup. destruct (Forall2_lookup_r _ _ _ _ _ H Hi) as (u & Hu & E). exists u. split; [by eapply elem_of_list_lookup_2|done].
  - intros (u & [i Hi]%elem_of_list_lookup & E). destruct (Forall2_lookup_l _ _ _ _ _ H Hi) as (n' & Hn & E'). assert (n' = n) as -> by congruence. by eapply elem_of_list_lookup_2.
Qed.
Definition statistic (op : red_op) : Prop := match op with RAny | RAll => False | _ => True end.
Definition bounds_by (R : num -> num -> num -> Prop) (op : red_op) : Prop :=
  forall l lo hi m, l <> [] -> NaN ∉ l -> lo ∈ l -> hi ∈ l -> Forall (inside lo hi) l -> reduced op l m -> R lo m hi.
Lemma mean_by : bounds_by bounded RMean.
Proof. intros l lo hi m Hne HN Hlo Hhi HF ->. by apply mean_inside. Qed.
Lemma median_by : bounds_by bounded RMedian.
Proof. intros l lo hi m Hne HN Hlo Hhi HF H. by eapply median_inside. Qed.
Lemma variance_by ddof : (ddof <= 0)%Z -> bounds_by variance_bounded (RVar ddof).
Proof. intros Hd l lo hi m Hne HN Hlo Hhi HF H. by eapply variance_inside. Qed.

Lemma reduces_num op vs v : statistic op -> reduces op vs v -> exists ns m, numbers vs ns /\ to_num v = Some m /\ if decide (present ns = []) then m = NaN else reduced op (present ns) m.
Proof. by destruct op. Qed.
Lemma same_extremes op R vs1 vs2 vs3 u v w : statistic op -> bounds_by R op -> R NaN NaN NaN ->
  (forall x, x ∈ vs1 <-> x ∈ vs2) -> (forall x, x ∈ vs3 <-> x ∈ vs2) -> reduces RMin vs1 u -> reduces op vs2 v -> reduces RMax vs3 w ->
  exists l m n, to_num u = Some l /\ to_num v = Some m /\ to_num w = Some n /\ R l m n.
Proof.
  intros Hop HR HN E1 E3 (ns1 & l & N1 & T1 & P1)%reduces_num (ns2 & m & N2 & T2 & P2)%reduces_num (ns3 & n & N3 & T3 & P3)%reduces_num; try done.
  exists l, m, n. split_and!; try done.
  assert (H1 : forall x, x ∈ present ns1 <-> x ∈ present ns2). { intros x. rewrite (elem_present _ _ _ N1), (elem_present _ _ _ N2). by setoid_rewrite E1. }
  assert (H3 : forall x, x ∈ present ns3 <-> x ∈ present ns2). { intros x. rewrite (elem_present _ _ _ N3), (elem_present _ _ _ N2). by setoid_rewrite E3. }
  assert (He : forall l1 l2 : list num, (forall x, x ∈ l1 <-> x ∈ l2) -> l1 = [] -> l2 = []).
  { intros l1 [|x l2] H ->; [done|]. assert (x ∈ @nil num) as Hx by (apply H; left). by apply elem_of_nil in Hx. }
  destruct (decide (present ns2 = [])) as [E|E].
  - rewrite decide_True in P1 by (eapply He; [|done]; naive_solver). rewrite decide_True in P3 by (eapply He; [|done]; naive_solver). by subst.
  - rewrite decide_False in P1 by (intros Hx; by apply E, (He _ _ H1)). rewrite decide_False in P3 by (intros Hx; by apply E, (He _ _ H3)).
    destruct P1 as [L1 L2]. destruct P3 as [M1 M2]. apply (HR (present ns2)); [done| |by apply H1|by apply H3| |done].
    + intros Hx. by apply elem_of_list_filter in Hx as [Hx _].
    + apply Forall_forall. intros x Hx. split; [by apply L2, H1|by apply M2, H3].
Qed.
Lemma values_elem y vs v : values_of y vs -> v ∈ vs <-> exists ls, in_grid (llabel y) ls /\ cell y ls = Some v.
Proof.
  intros (ts & _ & Hts & H). split.
  - intros [i Hi]%elem_of_list_lookup. destruct (Forall2_lookup_r _ _ _ _ _ H Hi) as (ls & Hl & Hc). exists ls. split; [apply Hts; by eapply elem_of_list_lookup_2|done].
  - intros (ls & Hg & Hc). apply Hts in Hg. apply elem_of_list_lookup in Hg as [i Hi]. destruct (Forall2_lookup_l _ _ _ _ _ H Hi) as (v' & Hv & Hc').
    assert (v' = v) as -> by congruence. by eapply elem_of_list_lookup_2.
Qed.
Lemma lane_fun y ax ls vs vs' : lane_of y ax ls vs -> lane_of y ax ls vs' -> vs = vs'.
Proof.
  intros (l & Hl & H) (l' & Hl' & H'). assert (l' = l) as -> by congruence. clear -H H'. revert vs' H'.
  induction H as [|x v l vs Hx H IH]; intros vs' H'; inversion H'; subst; [done|]. f_equal; [congruence|]. by apply IH.
Qed.
Lemma outs_related op R y axis a b c : statistic op -> bounds_by R op -> R NaN NaN NaN -> valid y ->
  reduction_of RMin y axis a -> reduction_of op y axis b -> reduction_of RMax y axis c -> three_related R a b c.
Proof.
  intros Hop HR HN Hv. unfold reduction_of, reduction_by. destruct axis as [z|].
  - intros (ax & Hax & A1 & A2) (ax2 & Hax2 & B1 & B2) (ax3 & Hax3 & C1 & C2).
    assert (ax2 = ax) as -> by (by eapply axis_is_fun). assert (ax3 = ax) as -> by (by eapply axis_is_fun).
    destruct (decide (length (llabel y) = 1)) as [E|E].
    + destruct (A1 E) as (vs1 & u & -> & V1 & R1). destruct (B1 E) as (vs2 & v & -> & V2 & R2). destruct (C1 E) as (vs3 & w & -> & V3 & R3).
      rewrite (lane_fun _ _ _ _ _ V1 V2) in R1. rewrite (lane_fun _ _ _ _ _ V3 V2) in R3. by eapply same_extremes.
    + assert (1 < length (llabel y)) as E'. { destruct Hax as [Hax _]. lia. }
      destruct (A2 E') as (z1 & -> & V1 & L1 & R1). destruct (B2 E') as (z2 & -> & V2 & L2 & R2). destruct (C2 E') as (z3 & -> & V3 & L3 & R3).
      simpl. split_and!; [congruence|congruence|]. intros ls Hg. destruct (R2 ls Hg) as (vs2 & v & K2 & D2 & S2).
      destruct (R1 ls) as (vs1 & u & K1 & D1 & S1); [by rewrite L1, <-L2|]. destruct (R3 ls) as (vs3 & w & K3 & D3 & S3); [by rewrite L3, <-L2|].
      rewrite (lane_fun _ _ _ _ _ K1 K2) in S1. rewrite (lane_fun _ _ _ _ _ K3 K2) in S3.
      destruct (same_extremes op R vs2 vs2 vs2 u v w) as (l & m & n & ? & ? & ? & ?); try done. eauto 15.
  - intros (vs1 & u & -> & V1 & R1) (vs2 & v & -> & V2 & R2) (vs3 & w & -> & V3 & R3). simpl.
    eapply same_extremes; [done|done|done| | |done|done|done]; intros x; by rewrite !values_elem by done.
Qed.
Theorem reduce_bounded op y axis : op = RMean \/ op = RMedian -> valid y -> nonempty y -> arithmetic (ldtype y) -> axis_ok y axis ->
  exists a b c, larry_reduce RMin y axis = Ok a /\ larry_reduce op y axis = Ok b /\ larry_reduce RMax y axis = Ok c /\ three_related bounded a b c.
Proof.
  intros Hop Hv Hne Ha Hax.
  destruct (C33_reduce_succeeds RMin y axis) as (a & Ea & Ra); try done.
  destruct (C33_reduce_succeeds op y axis) as (b & Eb & Rb); try done; [by destruct Hop as [->| ->]|].
  destruct (C33_reduce_succeeds RMax y axis) as (c & Ec & Rc); try done.
  exists a, b, c. split_and!; try done. apply (outs_related op bounded y axis); try done.
  - by destruct Hop as [->| ->].
  - destruct Hop as [->| ->]; [apply mean_by|apply median_by].
  - by left.
Qed.
Theorem variance_out y axis ddof : (ddof <= 0)%Z -> valid y -> nonempty y -> arithmetic (ldtype y) -> axis_ok y axis ->
  exists a b c, larry_reduce RMin y axis = Ok a /\ larry_reduce (RVar ddof) y axis = Ok b /\ larry_reduce RMax y axis = Ok c /\ three_related variance_bounded a b c.
Proof.
  intros Hop Hv Hne Ha Hax.
  destruct (C33_reduce_succeeds RMin y axis) as (a & Ea & Ra); try done.
  destruct (C33_reduce_succeeds (RVar ddof) y axis) as (b & Eb & Rb); try done.
  destruct (C33_reduce_succeeds RMax y axis) as (c & Ec & Rc); try done.
  exists a, b, c. split_and!; try done. apply (outs_related (RVar ddof) variance_bounded y axis); try done.
  - by apply variance_by.
  - unfold variance_bounded. split_and!; [tauto|done|]. split; [done|]. by intros (q & ? & _).
Qed.

Lemma same_window op R ns l m n : bounds_by R op -> R NaN NaN NaN ->
  reduced_or_nan RMin ns l -> reduced_or_nan op ns m -> reduced_or_nan RMax ns n -> R l m n.
Proof.
  intros HR HN. unfold reduced_or_nan. destruct (decide (present ns = [])) as [E|E]; [by intros -> -> ->|].
  intros [L1 L2] Hm [M1 M2]. apply (HR (present ns)); try done.
  - intros Hx. by apply elem_of_list_filter in Hx as [Hx _].
  - apply Forall_forall. intros x Hx. split; [by apply L2|by apply M2].
Qed.
Lemma lane_at y z ax l ls vs ms : in_grid (llabel y) ls -> llabel y !! ax = Some l -> llabel z = llabel y ->
  lane_of z ax (delete ax ls) (VFloat <$> ms) -> lane_of y ax (delete ax ls) vs ->
  exists x i, ls !! ax = Some x /\ l !! i = Some x /\ i < length vs /\ (NoDup l -> forall j, l !! j = Some x -> j = i) /\ forall m, ms !! i = Some m -> cell z ls = Some (VFloat m).
Proof.
  intros Hg Hl Lz (l1 & Hl1 & Hm) (l0 & Hl0 & Hvs). assert (l1 = l) as -> by congruence. assert (l0 = l) as -> by congruence.
  destruct (Forall2_lookup_r _ _ _ _ _ Hg Hl) as (x & Hx & Hxl). apply elem_of_list_lookup in Hxl as [i Hxi].
  exists x, i. split_and!; try done.
  - rewrite <-(Forall2_length _ _ _ Hvs). by eapply lookup_lt_Some.
  - intros HN j Hj. by eapply NoDup_lookup.
  - intros m Hmi. assert (Hv : (VFloat <$> ms) !! i = Some (VFloat m)) by (by rewrite list_lookup_fmap, Hmi).
    destruct (Forall2_lookup_lr _ _ _ _ _ _ Hm Hxi Hv). by rewrite with_label_delete.
Qed.
Lemma three_lanes (P1 P2 P3 : list num -> list num -> Prop) y a zl zm zh :
  valid y -> lanes_related P1 y (Some a) zl -> lanes_related P2 y (Some a) zm -> lanes_related P3 y (Some a) zh ->
  (forall ax ls vs ns m1 m2 m3, lane_of y ax ls vs -> numbers vs ns -> P1 ns m1 -> P2 ns m2 -> P3 ns m3 ->
     forall i, i < length ns -> exists n1 n2 n3, m1 !! i = Some n1 /\ m2 !! i = Some n2 /\ m3 !! i = Some n3 /\ bounded n1 n2 n3) ->
  three_related bounded (OLar zl) (OLar zm) (OLar zh).
Proof.
  intros Hv (V1 & _ & L1 & ax & Hax & H1) (V2 & _ & L2 & ax2 & Hax2 & H2) (V3 & _ & L3 & ax3 & Hax3 & H3) HP.
  assert (ax2 = ax) as -> by (by eapply axis_is_fun). assert (ax3 = ax) as -> by (by eapply axis_is_fun).
  simpl. split_and!; [congruence|congruence|]. rewrite L2. intros ls Hg.
  assert (exists l, llabel y !! ax = Some l) as [l Hl]. { apply lookup_lt_is_Some. apply Hax. }
  assert (HN : NoDup l). { apply valid_nodup in Hv. by eapply Forall_lookup_1 in Hv. }
  assert (Hg' : in_grid (delete ax (llabel y)) (delete ax ls)) by (by apply Forall2_delete).
  destruct (H1 _ Hg') as (vs & ns & m1 & Hvs & Hns & Hm1 & R1).
  destruct (H2 _ Hg') as (vs' & ns' & m2 & Hvs' & Hns' & Hm2 & R2).
  destruct (H3 _ Hg') as (vs3 & ns3 & m3 & Hvs3 & Hns3 & Hm3 & R3).
  rewrite (lane_of_unique _ _ _ _ _ Hvs' Hvs), (lane_of_unique _ _ _ _ _ Hvs3 Hvs) in *. rewrite (numbers_fun _ _ _ Hns' Hns), (numbers_fun _ _ _ Hns3 Hns) in *.
  destruct (lane_at y zl ax l ls vs m1) as (x & i & Hx & Hi & Hlen & Hu & C1); try done.
  destruct (lane_at y zm ax l ls vs m2) as (x2 & i2 & Hx2 & Hi2 & _ & _ & C2); try done.
  destruct (lane_at y zh ax l ls vs m3) as (x3 & i3 & Hx3 & Hi3 & _ & _ & C3); try done.
  assert (x2 = x) as -> by congruence. assert (x3 = x) as -> by congruence.
  rewrite (Hu HN i2 Hi2) in *. rewrite (Hu HN i3 Hi3) in *.
  destruct (HP ax _ vs ns m1 m2 m3 Hvs Hns R1 R2 R3 i) as (n1 & n2 & n3 & N1 & N2 & N3 & B). { by rewrite <-(Forall2_length _ _ _ Hns). }
  exists (VFloat n1), (VFloat n2), (VFloat n3), n1, n2, n3. split_and!; eauto.
Qed.
Theorem moving_bounded y w a ax l : valid y -> numeric_larry y -> no_inf y -> axis_is y a ax -> llabel y !! ax = Some l -> (1 <= w <= Z.of_nat (length l))%Z ->
  exists zl zm zh, larry_move MMin y w (Some a) = Ok zl /\ larry_move MMean y w (Some a) = Ok zm /\ larry_move MMax y w (Some a) = Ok zh /\
    three_related bounded (OLar zl) (OLar zm) (OLar zh).
Proof.
  intros Hv Hn Hi Hax Hl Hw.
  destruct (C82_min y w a ax l) as (zl & El & H1); try done.
  destruct (C82_mean_partial y w a ax l) as (zm & Em & H2); try done.
  destruct (C82_max y w a ax l) as (zh & Eh & H3); try done.
  exists zl, zm, zh. do 3 (split; [done|]). eapply three_lanes; [done..|].
  intros ax' ls vs ns m1 m2 m3 (l' & _ & Hvs) Hns [_ R1] [_ R2] [_ R3] i Hk.
  destruct (R1 i Hk) as (n1 & N1 & P1). destruct (R2 i Hk) as (n2 & N2 & P2). destruct (R3 i Hk) as (n3 & N3 & P3).
  exists n1, n2, n3. do 3 (split; [done|]). destruct (decide (i + 1 < Z.to_nat w)); [by left; subst|].
  eapply same_window; [apply mean_by|by left|done| |done].
  apply P2. intros e He. assert (e ∈ ns) as [k Hke]%elem_of_list_lookup by (rewrite <-(take_drop (i + 1 - Z.to_nat w) ns); apply elem_of_app; by left).
  destruct (Forall2_lookup_r _ _ _ _ _ Hns Hke) as (v & Hvk & Ev). destruct (Forall2_lookup_r _ _ _ _ _ Hvs Hvk) as (x' & _ & Hc).
  destruct v; simpl in Ev; simplify_eq; try done. by eapply Hi.
Qed.
Theorem moving_median_bounded layout y w a ax l method : good_layout layout -> valid y -> numeric_larry y -> axis_is y a ax -> llabel y !! ax = Some l ->
  (1 <= w <= Z.of_nat (length l))%Z -> method = MLoop \/ method = MStrides /\ length (llabel y) <= 3 ->
  exists zl zm zh, larry_move MMin y w (Some a) = Ok zl /\ larry_move_median layout y w (Some a) method = Ok zm /\ larry_move MMax y w (Some a) = Ok zh /\
    three_related bounded (OLar zl) (OLar zm) (OLar zh).
Proof.
  intros Hlay Hv Hn Hax Hl Hw Hm.
  destruct (C82_min y w a ax l) as (zl & El & H1); try done.
  destruct (C40_median layout y w a ax l method) as (zm & Em & H2); try done.
  destruct (C82_max y w a ax l) as (zh & Eh & H3); try done.
  exists zl, zm, zh. do 3 (split; [done|]). eapply three_lanes; [done..|].
  intros ax' ls vs ns m1 m2 m3 _ _ [_ R1] [_ R2] [_ R3] i Hk.
  destruct (R1 i Hk) as (n1 & N1 & P1). destruct (R2 i Hk) as (n2 & N2 & P2). destruct (R3 i Hk) as (n3 & N3 & P3).
  exists n1, n2, n3. do 3 (split; [done|]). destruct (decide (i + 1 < Z.to_nat w)); [by left; subst|].
  eapply (same_window RMedian); [apply median_by|by left|done|done|done].
Qed.
