(** C101: different calls with the same result; numbers. *)
From Verif Require Import StepsFacts PropsLarry PropsAlign PropsOps PropsNumeric PropsFarray SpecFacts LarryFacts CommuteLanes NumFacts NDArrayFacts FarrayFacts.
From Verif Require Import Larry Align Missing Ops Numeric Farray SpecNum SpecOps SpecFarray.
From Verif Require Export SpecRoads.

(** * demean and demedian of a whole larry *)
Lemma cell_amap_same y f dt ls : cell (Larry (Nda dt (amap f (larr y))) (llabel y)) ls = f <$> cell y ls.
Proof.
  unfold cell. simpl. destruct (locate (llabel y) ls) as [idx|]; [|done]. apply get_amap.
Qed.
Lemma centre_road op y mu z : valid y -> numeric_larry y -> op = RMean \/ op = RMedian -> larry_reduce op y None = Ok (OVal (VFloat mu)) ->
  larry_arith ASub y (OpScalar (VFloat mu)) = Ok z -> (x ← on_axis (centre_lane op) (lx y) None; Ok (Larry x (llabel y))) = Ok z.
Proof.
  intros Hv Hn Hop Hr Ha.
  assert (Hmu : mu = float_red op (lane_nums (data (larr y))) \/ lsize y = 0).
  { unfold larry_reduce in Hr. destruct (decide (lsize y = 0)) as [|_]; [by right|]. left.
    destruct Hop as [-> | ->], Hn as [Hd|Hd]; rewrite Hd in Hr; simpl in Hr; injection Hr as <-; done. }
  set (g := fun n => num_sub n (float_red op (lane_nums (data (larr y))))).
  assert (E : on_axis (centre_lane op) (lx y) None = lanewise (fun ns => g <$> ns) (lx y) None) by done.
  rewrite E, lanewise_map by apply Hv. clear E. unfold check_numeric. change (nd_dtype (lx y)) with (ldtype y).
  assert ((match ldtype y with DFloat | DInt => Ok () | _ => Err NotImplementedError end) = Ok ()) as Hc by (by destruct Hn as [-> | ->]).
  destruct (C60_scalar _ _ _ _ Hv Ha) as (Vz & Lz & Cz).
  assert (Dz : ldtype z = DFloat).
  { unfold larry_arith, larry_binary in Ha. simpl in Ha. unfold np_arith in Ha. change (nd_dtype (lx y)) with (ldtype y) in Ha.
    assert (arith_dtype ASub (ldtype y) DFloat = Ok DFloat) as Hdt by (by destruct Hn as [-> | ->]). simpl in Ha. rewrite Hdt in Ha. cbn [mbind res_bind] in Ha.
    apply bind_ok in Ha as (x & Hx & [= <-]). unfold elementwise in Hx. apply bind_ok in Hx as (sh & _ & Hx). apply bind_ok in Hx as (b & _ & [= <-]). done. }
  match goal with |- (_ ← ?e; _) = _ => assert (e = Ok (Nda DFloat (amap (fun v => match to_num v with Some n => VFloat (g n) | None => v end) (larr y)))) as -> end.
  { by destruct Hn as [-> | ->]. }
  cbn [mbind res_bind]. f_equal.
  set (w := Larry (Nda DFloat (amap _ (larr y))) (llabel y)).
  assert (Vw : valid w).
  { destruct Hv as ((Hw & Ht) & Hne & Hsh & HN). split; [|done]. split; [by apply amap_wf|]. simpl. apply Forall_fmap.
    eapply Forall_impl; [exact Ht|]. intros v Hd. change (nd_dtype (lx y)) with (ldtype y) in Hd. simpl.
    destruct (numeric_to_num y v Hn Hd) as [n ->]. done. }
  apply larry_ext; [done|done|by rewrite Dz|by rewrite Lz|]. intros ls Hg. change (in_grid (llabel y) ls) in Hg.
  apply (valid_cell_grid _ _ Hv) in Hg as [v Hc']. unfold w. rewrite cell_amap_same, Hc'. simpl.
  destruct (Cz ls v Hc') as (u & Hu & Hau). rewrite Hu. f_equal.
  pose proof (valid_cell_typed _ _ _ Hv Hc') as Tv. pose proof (valid_cell_typed _ _ _ Vz Hu) as Tu. rewrite Dz in Tu.
  destruct Hmu as [->|H0].
  2: { exfalso. assert (in_grid (llabel y) ls) as Hg by (apply (valid_cell_grid _ _ Hv); eauto). revert H0. apply ReduceFacts.size_nonempty; [done|].
       apply Forall_forall. intros l Hl ->. apply elem_of_list_lookup in Hl as [i Hi]. destruct (Forall2_lookup_r _ _ _ _ _ Hg Hi) as (x & _ & Hx). by apply elem_of_nil in Hx. }
  destruct (numeric_to_num y v Hn Tv) as [n Hnn]. rewrite Hnn.
  assert (exists n1 n2, to_num v = Some n1 /\ Some (float_red op (lane_nums (data (larr y)))) = Some n2 /\ to_num u = Some (num_sub n1 n2)) as (n1 & n2 & H1 & H2 & H3).
  { destruct v; try done; simpl in Hau; destruct Hau as (n1 & n2 & H1 & H2 & H3); rewrite decide_False in H3 by naive_solver; eauto. }
  destruct u; try done. simpl in H3. unfold g. congruence.
Qed.

Theorem demean_road y mu z : valid y -> numeric_larry y -> larry_mean y None = Ok (OVal (VFloat mu)) ->
  larry_arith ASub y (OpScalar (VFloat mu)) = Ok z -> larry_demean y None = Ok z.
Proof. intros Hv Hn H1 H2. apply (centre_road RMean y mu); auto. Qed.
Theorem demedian_road y mu z : valid y -> numeric_larry y -> larry_median y None = Ok (OVal (VFloat mu)) ->
  larry_arith ASub y (OpScalar (VFloat mu)) = Ok z -> larry_demedian y None = Ok z.
Proof. intros Hv Hn H1 H2. apply (centre_road RMedian y mu); auto. Qed.

(** * Reductions of opposites *)
Definition matched (S : val -> val -> Prop) (vs ws : list val) : Prop :=
  (forall v, v ∈ vs -> exists w, w ∈ ws /\ S v w) /\ (forall w, w ∈ ws -> exists v, v ∈ vs /\ S v w).
Lemma reduction_pair (Q1 Q2 : list val -> val -> Prop) (S R : val -> val -> Prop) y n axis o o' :
  valid y -> llabel n = llabel y -> (forall ls v w, cell y ls = Some v -> cell n ls = Some w -> S v w) ->
  (forall vs ws v w, matched S vs ws -> Q1 vs v -> Q2 ws w -> R v w) ->
  reduction_by Q1 y axis o -> reduction_by Q2 n axis o' -> related_out R o o'.
Proof.
  intros Hv HL HS HQ H1 H2.
  assert (Hlane : forall ax ls vs ws, lane_of y ax ls vs -> lane_of n ax ls ws -> matched S vs ws).
  { intros ax ls vs ws (l & Hl & Hvs) (l' & Hl' & Hws). rewrite HL in Hl'. assert (l' = l) as -> by congruence. split.
    - intros v Hin. apply elem_of_list_lookup in Hin as [i Hi]. destruct (Forall2_lookup_r _ _ _ _ _ Hvs Hi) as (x & Hx & Hc).
      destruct (Forall2_lookup_l _ _ _ _ _ Hws Hx) as (w & Hw & Hc'). exists w. split; [by eapply elem_of_list_lookup_2|]. by eapply HS.
    - intros w Hin. apply elem_of_list_lookup in Hin as [i Hi]. destruct (Forall2_lookup_r _ _ _ _ _ Hws Hi) as (x & Hx & Hc).
      destruct (Forall2_lookup_l _ _ _ _ _ Hvs Hx) as (v & Hw & Hc'). exists v. split; [by eapply elem_of_list_lookup_2|]. by eapply HS. }
  destruct axis as [a|].
  - destruct H1 as (ax & Hax & H11 & H1m), H2 as (ax' & Hax' & H21 & H2m).
    assert (axis_is y a ax') as Hax'' by (apply (axis_is_lab n); [by rewrite HL|done]). rewrite <-(axis_unique _ _ _ _ Hax Hax'') in *. rewrite HL in H21, H2m.
    destruct (decide (length (llabel y) = 1)) as [E|E].
    + destruct (H11 E) as (vs & v & -> & Hl1 & Hq1), (H21 E) as (ws & w & -> & Hl2 & Hq2). simpl. eapply HQ; [by eapply Hlane|done|done].
    + assert (1 < length (llabel y)) as Hlt by (destruct Hax; lia).
      destruct (H1m Hlt) as (z & -> & Vz & Lz & Cz), (H2m Hlt) as (z' & -> & Vz' & Lz' & Cz'). simpl. split_and!; [done|done|congruence|].
      intros ls v Hc. assert (in_grid (llabel z) ls) as Hg by (apply (valid_cell_grid _ _ Vz); eauto).
      destruct (Cz ls Hg) as (vs & v' & Hl1 & Hv' & Hq1). destruct (Cz' ls) as (ws & w & Hl2 & Hw & Hq2); [by rewrite Lz', <-Lz|].
      exists w. split; [done|]. assert (v' = v) as -> by congruence. eapply HQ; [by eapply Hlane|done|done].
  - destruct H1 as (vs & v & -> & (ts & _ & Ht & Hvs) & Hq1), H2 as (ws & w & -> & (ts' & _ & Ht' & Hws) & Hq2). simpl. eapply HQ; [|done|done].
    rewrite HL in Ht'. split.
    + intros v0 Hin. apply elem_of_list_lookup in Hin as [i Hi]. destruct (Forall2_lookup_r _ _ _ _ _ Hvs Hi) as (ls & Hx & Hc).
      apply elem_of_list_lookup_2, Ht, Ht', elem_of_list_lookup in Hx as [j Hj]. destruct (Forall2_lookup_l _ _ _ _ _ Hws Hj) as (w0 & Hw & Hc').
      exists w0. split; [by eapply elem_of_list_lookup_2|]. by eapply HS.
    + intros w0 Hin. apply elem_of_list_lookup in Hin as [i Hi]. destruct (Forall2_lookup_r _ _ _ _ _ Hws Hi) as (ls & Hx & Hc).
      apply elem_of_list_lookup_2, Ht', Ht, elem_of_list_lookup in Hx as [j Hj]. destruct (Forall2_lookup_l _ _ _ _ _ Hvs Hj) as (v0 & Hw & Hc').
      exists v0. split; [by eapply elem_of_list_lookup_2|]. by eapply HS.
Qed.

Theorem any_road y n axis o : valid y -> nonempty y -> larry_invert y = Ok n -> larry_any y axis = Ok o ->
  exists o', larry_all n axis = Ok o' /\ related_out opposite_bool o o'.
Proof.
  intros Hv Hne Hi Ho. destruct (C62_invert _ _ Hv Hi) as (Hd & Vn & Ln & Dn & Cn).
  destruct (C33_reduce RAny y axis o Hv Hne) as (_ & Hax & Hr); [done|done|].
  destruct (C33_reduce_succeeds RAll n axis Vn) as (o' & Ho' & Hr'); [by unfold nonempty; rewrite Ln|unfold arithmetic; rewrite Dn; auto| |done|].
  { destruct axis as [a|]; [|done]. destruct Hax as [ax Hax]. exists ax. apply (axis_is_lab y); [by rewrite Ln|done]. }
  exists o'. split; [done|]. apply (reduction_pair (reduces RAny) (reduces RAll) opposite_bool opposite_bool y n axis); try done.
  - intros ls v w H1 H2. destruct (Cn ls v H1) as (b & -> & H3). exists b. split; [done|]. congruence.
  - intros vs ws v w [HM1 HM2] [[-> (u & Hu & Ht)]|[-> Hf]] [[-> Ht']|[-> (u' & Hu' & Ht')]].
    + destruct (HM1 u Hu) as (w & Hw & b & -> & ->). specialize (Ht' _ Hw). simpl in *. by destruct b.
    + by exists true.
    + by exists false.
    + destruct (HM2 u' Hu') as (v & Hvv & b & -> & ->). specialize (Hf _ Hvv). simpl in *. by destruct b.
Qed.

(** The greatest and the least. *)
Lemma num_lt_neg a b : num_lt a b -> num_lt (num_neg b) (num_neg a).
Proof.
  destruct a as [p| | |], b as [q| | |]; simpl; try tauto. intros H.
  apply (Qcplus_lt_mono_l (- q) (- p) (p + q)%Qc). replace (p + q + - q)%Qc with p by ring. by replace (p + q + - p)%Qc with q by ring.
Qed.
Lemma num_neg_neg n : num_neg (num_neg n) = n.
Proof. destruct n; try done. simpl. f_equal. ring. Qed.
Lemma num_neg_nan n : num_neg n = NaN <-> n = NaN.
Proof. by destruct n. Qed.
Lemma num_le_neg a b : num_le a b -> num_le (num_neg b) (num_neg a).
Proof. intros [H|[-> H]]; [left; by apply num_lt_neg|right]. split; [done|]. by rewrite num_neg_nan. Qed.
Lemma num_le_anti a b : num_le a b -> num_le b a -> a = b.
Proof. intros [H1|[H1 _]] [H2|[H2 _]]; try done. by destruct (num_lt_irrefl a (num_lt_trans a b a H1 H2)). Qed.
(** What [max] and [min] mean, by membership. *)
Lemma reduces_max vs v : reduces RMax vs v -> exists m, to_num v = Some m /\
  ((forall u, u ∈ vs -> to_num u = Some NaN) /\ m = NaN \/
   (exists u, u ∈ vs /\ to_num u = Some m) /\ m <> NaN /\ forall u n, u ∈ vs -> to_num u = Some n -> n <> NaN -> num_le n m).
Proof.
  intros (ns & m & Hn & Hm & H). exists m. split; [done|].
  assert (HA : forall u, u ∈ vs -> exists n, n ∈ ns /\ to_num u = Some n).
  { intros u Hu. apply elem_of_list_lookup in Hu as [i Hi]. destruct (Forall2_lookup_l _ _ _ _ _ Hn Hi) as (n & H1 & H2). exists n. split; [by eapply elem_of_list_lookup_2|done]. }
  assert (HB : forall n, n ∈ ns -> exists u, u ∈ vs /\ to_num u = Some n).
  { intros n Hu. apply elem_of_list_lookup in Hu as [i Hi]. destruct (Forall2_lookup_r _ _ _ _ _ Hn Hi) as (u & H1 & H2). exists u. split; [by eapply elem_of_list_lookup_2|done]. }
  destruct (decide (present ns = [])) as [E|E].
  - left. split; [|done]. intros u Hu. destruct (HA u Hu) as (n & H1 & H2). rewrite H2. f_equal. destruct (decide (n = NaN)); [done|].
    assert (n ∈ present ns) as Hin by (by apply elem_of_list_filter). rewrite E in Hin. by apply elem_of_nil in Hin.
  - right. destruct H as [H1 H2]. apply elem_of_list_filter in H1 as [H0 H1]. split_and!; [by apply HB|done|].
    intros u n Hu Hun Hne. apply H2. apply elem_of_list_filter. split; [done|]. destruct (HA u Hu) as (n' & H3 & H4). congruence.
Qed.
Lemma reduces_min vs v : reduces RMin vs v -> exists m, to_num v = Some m /\
  ((forall u, u ∈ vs -> to_num u = Some NaN) /\ m = NaN \/
   (exists u, u ∈ vs /\ to_num u = Some m) /\ m <> NaN /\ forall u n, u ∈ vs -> to_num u = Some n -> n <> NaN -> num_le m n).
Proof.
  intros (ns & m & Hn & Hm & H). exists m. split; [done|].
  assert (HA : forall u, u ∈ vs -> exists n, n ∈ ns /\ to_num u = Some n).
  { intros u Hu. apply elem_of_list_lookup in Hu as [i Hi]. destruct (Forall2_lookup_l _ _ _ _ _ Hn Hi) as (n & H1 & H2). exists n. split; [by eapply elem_of_list_lookup_2|done]. }
  assert (HB : forall n, n ∈ ns -> exists u, u ∈ vs /\ to_num u = Some n).
  { intros n Hu. apply elem_of_list_lookup in Hu as [i Hi]. destruct (Forall2_lookup_r _ _ _ _ _ Hn Hi) as (u & H1 & H2). exists u. split; [by eapply elem_of_list_lookup_2|done]. }
  destruct (decide (present ns = [])) as [E|E].
  - left. split; [|done]. intros u Hu. destruct (HA u Hu) as (n & H1 & H2). rewrite H2. f_equal. destruct (decide (n = NaN)); [done|].
    assert (n ∈ present ns) as Hin by (by apply elem_of_list_filter). rewrite E in Hin. by apply elem_of_nil in Hin.
  - right. destruct H as [H1 H2]. apply elem_of_list_filter in H1 as [H0 H1]. split_and!; [by apply HB|done|].
    intros u n Hu Hun Hne. apply H2. apply elem_of_list_filter. split; [done|]. destruct (HA u Hu) as (n' & H3 & H4). congruence.
Qed.
Lemma max_min_opposite vs ws v w : matched opposite_num vs ws -> reduces RMax vs v -> reduces RMin ws w -> opposite_num v w.
Proof.
  intros [HM1 HM2] (m & Hm & H1)%reduces_max (k & Hk & H2)%reduces_min. exists m. split; [done|]. rewrite Hk. f_equal.
  destruct H1 as [[HA ->]|((u & Hu & Hum) & Hmn & HA)], H2 as [[HB ->]|((u' & Hu' & Huk) & Hkn & HB)].
  - done.
  - exfalso. destruct (HM2 u' Hu') as (x & Hx & n & Hn & Hn'). specialize (HA x Hx). rewrite Hn in HA. injection HA as ->. simpl in Hn'. congruence.
  - exfalso. destruct (HM1 u Hu) as (x & Hx & n & Hn & Hn'). specialize (HB x Hx). rewrite Hn' in HB. assert (n = NaN) as -> by (apply num_neg_nan; congruence). congruence.
  - destruct (HM1 u Hu) as (x & Hx & n & Hn & Hn'). assert (n = m) as -> by congruence.
    destruct (HM2 u' Hu') as (x' & Hx' & n' & Hn1 & Hn2). assert (k = num_neg n') as -> by congruence.
    f_equal. apply num_le_anti.
    + apply (HA x'); [done|done|]. intros ->. done.
    + rewrite <-(num_neg_neg m), <-(num_neg_neg n'). apply num_le_neg. apply (HB x); [done|done|]. by rewrite num_neg_nan.
Qed.
Theorem max_road y n axis o : valid y -> nonempty y -> numeric_larry y -> larry_neg y = Ok n -> larry_max y axis = Ok o ->
  exists o', larry_min n axis = Ok o' /\ related_out opposite_num o o'.
Proof.
  intros Hv Hne Hnum Hi Ho. destruct (C62_neg _ _ Hv Hi) as (Vn & Ln & Dn & Han & Cn).
  destruct (C33_reduce RMax y axis o Hv Hne) as (_ & Hax & Hr); [done|done|].
  destruct (C33_reduce_succeeds RMin n axis Vn) as (o' & Ho' & Hr'); [by unfold nonempty; rewrite Ln|by rewrite Dn| |done|].
  { destruct axis as [a|]; [|done]. destruct Hax as [ax Hax]. exists ax. apply (axis_is_lab y); [by rewrite Ln|done]. }
  exists o'. split; [done|]. apply (reduction_pair (reduces RMax) (reduces RMin) opposite_num opposite_num y n axis); try done; [|apply max_min_opposite].
  intros ls v w H1 H2. destruct (Cn ls v H1) as (w' & H3 & H4). assert (w' = w) as -> by congruence.
  pose proof (valid_cell_typed _ _ _ Hv H1) as T. destruct Hnum as [E|E]; rewrite E in T; destruct v; try done.
Qed.
