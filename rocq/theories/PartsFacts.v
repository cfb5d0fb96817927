(** C107: statistics of the whole and of the parts that keep_label makes. *)
From Verif Require Import NumFacts RankLarry MoveFacts SummaryFacts TwiceFacts LaneFacts SpecFacts StepsFacts MovingFacts FarrayFacts ReorderFacts RefineOut AlignFacts PropsLarry PropsNumeric.
From Verif Require Import Numeric.
From Verif Require Import BoundsFacts Bounds2Facts MonoFacts Mono2Facts.
From Verif Require Export SpecParts.
Local Open Scope nat_scope.

Lemma total_app l l' : num_total (l ++ l') = num_add (num_total l) (num_total l').
Proof. induction l as [|x l IH]; [symmetry; apply num_add_0_l|]. rewrite <-app_comm_cons, !num_total_cons, IH. apply num_add_assoc. Qed.
Definition pool_op (op : red_op) : Prop := op = RSum \/ op = RMin \/ op = RMax.
Lemma reduced_same op l l' m m' : pool_op op -> l ≡ₚ l' -> reduced op l m -> reduced op l' m' -> m = m'.
Proof.
  intros [->|[->| ->]] Hp; simpl.
  - intros -> ->. by apply total_perm.
  - intros [H1 H2] [H1' H2']. apply num_le_antisym; [apply H2; by rewrite Hp|apply H2'; by rewrite <-Hp].
  - intros [H1 H2] [H1' H2']. apply num_le_antisym; [apply H2'; by rewrite <-Hp|apply H2; by rewrite Hp].
Qed.
Lemma reduced_pooled op l l1 l2 m m1 m2 : pool_op op -> l ≡ₚ l1 ++ l2 -> NaN ∉ l1 -> NaN ∉ l2 -> (op = RSum -> m1 <> NaN /\ m2 <> NaN) ->
  reduced op l1 m1 -> reduced op l2 m2 -> reduced op l m -> pooled op m1 m2 m.
Proof.
  intros Hop Hp N1 N2 HS. destruct Hop as [->|[->| ->]]; simpl.
  - intros E1 E2 E. destruct (HS eq_refl) as [H1 H2]. right. right. split_and!; try done. by rewrite E, E1, E2, <-total_app, (total_perm _ _ Hp).
  - intros [A1 A2] [B1 B2] [C1 C2]. right. right. split; [by intros ->|]. split; [by intros ->|].
    assert (L1 : num_le m m1) by (apply C2; rewrite Hp; apply elem_of_app; by left).
    assert (L2 : num_le m m2) by (apply C2; rewrite Hp; apply elem_of_app; by right).
    split_and!; try done. rewrite Hp in C1. apply elem_of_app in C1 as [C1|C1]; [left|right]; apply num_le_antisym; auto.
  - intros [A1 A2] [B1 B2] [C1 C2]. right. right. split; [by intros ->|]. split; [by intros ->|].
    assert (L1 : num_le m1 m) by (apply C2; rewrite Hp; apply elem_of_app; by left).
    assert (L2 : num_le m2 m) by (apply C2; rewrite Hp; apply elem_of_app; by right).
    split_and!; try done. rewrite Hp in C1. apply elem_of_app in C1 as [C1|C1]; [left|right]; apply num_le_antisym; auto.
Qed.
Definition tame_vals (op : red_op) (vs : list val) : Prop := op = RSum -> forall v n, v ∈ vs -> to_num v = Some n -> is_inf n = false.
Lemma sum_number vs ns m : numbers vs ns -> tame_vals RSum vs -> m = num_total (present ns) -> m <> NaN.
Proof.
  intros HN Ht ->. assert (no_infinity ns) as Hi.
  { intros n [i Hi]%elem_of_list_lookup. destruct (Forall2_lookup_r _ _ _ _ _ HN Hi) as (v & Hv & E). eapply (Ht eq_refl); [|done]. by eapply elem_of_list_lookup_2. }
  destruct (total_finite _ Hi) as [q ->]. done.
Qed.
Lemma present_no_nan ns : NaN ∉ present ns.
Proof. intros Hx. by apply elem_of_list_filter in Hx as [Hx _]. Qed.
Lemma reduces_pooled op vs vs1 vs2 u u1 u2 : pool_op op -> vs ≡ₚ vs1 ++ vs2 -> tame_vals op vs1 -> tame_vals op vs2 ->
  reduces op vs1 u1 -> reduces op vs2 u2 -> reduces op vs u ->
  exists m1 m2 m, to_num u1 = Some m1 /\ to_num u2 = Some m2 /\ to_num u = Some m /\ pooled op m1 m2 m.
Proof.
  intros Hop Hp T1 T2. assert (statistic op) as Hs by (by destruct Hop as [->|[->| ->]]).
  intros (n1 & m1 & N1 & E1 & P1)%reduces_num (n2 & m2 & N2 & E2 & P2)%reduces_num (n & m & N & E & P)%reduces_num; try done.
  exists m1, m2, m. do 3 (split; [done|]).
  assert (Hn : n ≡ₚ n1 ++ n2).
  { destruct (Forall2_perm_r (fun n v => to_num v = Some n) n vs (vs1 ++ vs2)) as (k & Ek & HK); [done|by apply Forall2_flip in N|].
    apply Forall2_flip in HK. rewrite Ek. assert (numbers (vs1 ++ vs2) (n1 ++ n2)) as HA by (by apply Forall2_app). by rewrite (numbers_fun _ _ _ HK HA). }
  assert (Hq : present n ≡ₚ present n1 ++ present n2). { unfold present. by rewrite Hn, filter_app. }
  destruct (decide (present n1 = [])) as [H1|H1].
  - left. split; [done|]. rewrite H1 in Hq. simpl in Hq. destruct (decide (present n2 = [])) as [H2|H2].
    + rewrite H2 in Hq. apply Permutation_sym, Permutation_nil in Hq. rewrite decide_True in P by done. by subst.
    + rewrite decide_False in P. 2: { intros E'. rewrite E' in Hq. by apply Permutation_nil in Hq. } by eapply (reduced_same op).
  - assert (Hne : present n <> []). { intros E'. rewrite E' in Hq. apply Permutation_nil in Hq. by apply app_eq_nil in Hq as [? _]. }
    rewrite decide_False in P by done. destruct (decide (present n2 = [])) as [H2|H2].
    + right. left. split; [done|]. rewrite H2, app_nil_r in Hq. by eapply (reduced_same op).
    + eapply (reduced_pooled op); [done|exact Hq|apply present_no_nan|apply present_no_nan| |done|done|done].
      intros ->. split; [by eapply (sum_number vs1 n1)|by eapply (sum_number vs2 n2)].
Qed.

(** [y1] and [y2] are the slices of [y] at [k1] and [k2]. *)
Record parts (y : larry) (ax : nat) (l k1 k2 : list lab) (y1 y2 : larry) : Prop := Parts {
  parts_label : llabel y !! ax = Some l; parts_perm : l ≡ₚ k1 ++ k2; parts_ne1 : k1 <> []; parts_ne2 : k2 <> [];
  parts_l1 : llabel y1 = <[ax := k1]> (llabel y); parts_l2 : llabel y2 = <[ax := k2]> (llabel y);
  parts_v1 : valid y1; parts_v2 : valid y2; parts_d1 : ldtype y1 = ldtype y; parts_d2 : ldtype y2 = ldtype y;
  parts_c1 : forall ls x, ls !! ax = Some x -> x ∈ k1 -> cell y1 ls = cell y ls;
  parts_c2 : forall ls x, ls !! ax = Some x -> x ∈ k2 -> cell y2 ls = cell y ls }.
Lemma keep_cells y y1 ax op : (forall ls v, cell y1 ls = Some v <-> cell y ls = Some v /\ exists a, ls !! ax = Some a /\ op_holds op a) ->
  forall ls x, ls !! ax = Some x -> op_holds op x -> cell y1 ls = cell y ls.
Proof.
  intros H ls x Hx Ho. apply option_eq. intros v. rewrite H. split; [by intros [? _]|]. intros Hc. split; [done|]. by exists x.
Qed.
Lemma keep_parts y op1 op2 axis ax l y1 y2 : valid y -> axis_is y axis ax -> llabel y !! ax = Some l -> complementary op1 op2 l ->
  keep_label y op1 (Some axis) = Ok y1 -> keep_label y op2 (Some axis) = Ok y2 -> exists k1 k2, parts y ax l k1 k2 y1 y2.
Proof.
  intros Hv Hax Hl (Hc & (z1 & Z1 & O1) & (z2 & Z2 & O2)) E1 E2.
  apply C14_keep_label in E1 as (ax1 & l1 & X1 & L1 & k1 & S1 & M1 & K1 & _); [|done]. apply C14_keep_label in E2 as (ax2 & l2 & X2 & L2 & k2 & S2 & M2 & K2 & _); [|done].
  assert (ax1 = ax) as -> by (by eapply axis_is_fun). assert (ax2 = ax) as -> by (by eapply axis_is_fun).
  assert (l1 = l) as -> by congruence. assert (l2 = l) as -> by congruence.
  assert (Hz1 : z1 ∈ k1) by (by apply M1). assert (Hz2 : z2 ∈ k2) by (by apply M2).
  destruct K1 as (V1 & D1 & LL1 & C1); [by intros ->; apply elem_of_nil in Hz1|]. destruct K2 as (V2 & D2 & LL2 & C2); [by intros ->; apply elem_of_nil in Hz2|].
  assert (HN : NoDup l). { apply valid_nodup in Hv. by eapply Forall_lookup_1 in Hv. }
  exists k1, k2. split; try done.
  - apply NoDup_Permutation; [done| |].
    + apply NoDup_app. split_and!; [by eapply sublist_NoDup| |by eapply sublist_NoDup].
      intros x Hx1%M1 Hx2%M2. destruct Hx1, Hx2. destruct (Hc x) as [[_ ?]|[_ ?]]; done.
    + intros x. rewrite elem_of_app, M1, M2. split.
      * intros Hx. destruct (Hc x) as [[? _]|[? _]]; auto.
      * naive_solver.
  - by intros ->; apply elem_of_nil in Hz1.
  - by intros ->; apply elem_of_nil in Hz2.
  - intros ls x Hx Hk. eapply keep_cells; [done|done|]. by apply M1.
  - intros ls x Hx Hk. eapply keep_cells; [done|done|]. by apply M2.
Qed.
Lemma Forall2_within {A B} (R S : A -> B -> Prop) l k : Forall2 R l k -> (forall x v, x ∈ l -> R x v -> S x v) -> Forall2 S l k.
Proof. induction 1 as [|x v l k Hx _ IH]; intros H; constructor; [by apply H; [left|]|]. apply IH. intros. apply H; [by right|done]. Qed.
Lemma Forall2_det {A B} (f : A -> option B) l k k' : Forall2 (fun x v => f x = Some v) l k -> Forall2 (fun x v => f x = Some v) l k' -> k = k'.
Proof. intros H. revert k'. induction H as [|x v l k Hx _ IH]; intros k' H'; inversion H'; subst; [done|]. f_equal; [congruence|]. by apply IH. Qed.
Lemma lane_parts y ax l k1 k2 y1 y2 ls vs vs1 vs2 : parts y ax l k1 k2 y1 y2 -> ax <= length ls ->
  lane_of y ax ls vs -> lane_of y1 ax ls vs1 -> lane_of y2 ax ls vs2 -> vs ≡ₚ vs1 ++ vs2.
Proof.
  intros HP Hax (l0 & L0 & H) (l1 & L1 & H1) (l2 & L2 & H2). pose proof (parts_label _ _ _ _ _ _ _ HP) as Hl. assert (l0 = l) as -> by congruence.
  assert (Hlt : ax < length (llabel y)) by (by eapply lookup_lt_Some).
  rewrite (parts_l1 _ _ _ _ _ _ _ HP), list_lookup_insert in L1 by done. rewrite (parts_l2 _ _ _ _ _ _ _ HP), list_lookup_insert in L2 by done. simplify_eq.
  apply Forall2_flip in H. destruct (Forall2_perm_r _ _ _ _ (parts_perm _ _ _ _ _ _ _ HP) H) as (ws & Ew & HW). rewrite Ew. apply Forall2_flip in HW.
  assert (HA : Forall2 (fun x v => cell y (with_label ax x ls) = Some v) (l1 ++ l2) (vs1 ++ vs2)).
  { apply Forall2_app.
    - eapply Forall2_within; [exact H1|]. intros x v Hx Hc. rewrite <-Hc. symmetry. eapply (parts_c1 _ _ _ _ _ _ _ HP); [by apply FarrayFacts.with_label_lookup|done].
    - eapply Forall2_within; [exact H2|]. intros x v Hx Hc. rewrite <-Hc. symmetry. eapply (parts_c2 _ _ _ _ _ _ _ HP); [by apply FarrayFacts.with_label_lookup|done]. }
  apply Permutation_eq. by eapply (Forall2_det (fun x => cell y (with_label ax x ls))).
Qed.
Lemma insert_grid (L : list (list lab)) ax (l k : list lab) ls : L !! ax = Some l -> (forall x, x ∈ k -> x ∈ l) ->
  in_grid (<[ax := k]> L) ls <-> in_grid L ls /\ exists x, ls !! ax = Some x /\ x ∈ k.
Proof.
  intros Hl Hk. assert (Hlt : ax < length L) by (by eapply lookup_lt_Some). split.
  - intros Hg. assert (Hx : exists x, ls !! ax = Some x /\ x ∈ k) by (eapply in_grid_lookup; [done|]; by apply list_lookup_insert).
    split; [|done]. eapply in_grid_insert_inv; [done|done|]. intros x' Hx'. destruct Hx as (x & Ex & Hx). apply Hk. congruence.
  - intros [Hg (x & Ex & Hx)]. apply Forall2_same_length_lookup_2. { rewrite insert_length. by eapply Forall2_length. }
    intros i x' axis Hx' Haxis. destruct (decide (i = ax)) as [->|].
    + rewrite list_lookup_insert in Haxis by done. simplify_eq. congruence.
    + rewrite list_lookup_insert_ne in Haxis by done. by eapply (Forall2_lookup_lr _ _ _ i x' axis).
Qed.
Lemma values_parts y ax l k1 k2 y1 y2 vs vs1 vs2 : valid y -> parts y ax l k1 k2 y1 y2 -> values_of y vs -> values_of y1 vs1 -> values_of y2 vs2 -> vs ≡ₚ vs1 ++ vs2.
Proof.
  intros Hv HP (ts & Tn & Tm & H) (t1 & Tn1 & Tm1 & H1) (t2 & Tn2 & Tm2 & H2). pose proof (parts_label _ _ _ _ _ _ _ HP) as Hl. pose proof (parts_perm _ _ _ _ _ _ _ HP) as Hp.
  assert (HN : NoDup l). { apply valid_nodup in Hv. by eapply Forall_lookup_1 in Hv. }
  assert (Hk1 : forall x, x ∈ k1 -> x ∈ l) by (intros x Hx; rewrite Hp; apply elem_of_app; by left). assert (Hk2 : forall x, x ∈ k2 -> x ∈ l) by (intros x Hx; rewrite Hp; apply elem_of_app; by right).
  setoid_rewrite (parts_l1 _ _ _ _ _ _ _ HP) in Tm1. setoid_rewrite (parts_l2 _ _ _ _ _ _ _ HP) in Tm2.
  assert (G1 : forall ls, ls ∈ t1 <-> in_grid (llabel y) ls /\ exists x, ls !! ax = Some x /\ x ∈ k1) by (intros ls; rewrite Tm1; by apply (insert_grid _ _ l)).
  assert (G2 : forall ls, ls ∈ t2 <-> in_grid (llabel y) ls /\ exists x, ls !! ax = Some x /\ x ∈ k2) by (intros ls; rewrite Tm2; by apply (insert_grid _ _ l)).
  assert (Ht : ts ≡ₚ t1 ++ t2).
  { apply NoDup_Permutation; [done| |].
    - apply NoDup_app. split_and!; [done| |done]. intros ls (_ & x & Ex & Hx)%G1 (_ & x' & Ex' & Hx')%G2. assert (x' = x) as -> by congruence.
      rewrite Hp in HN. apply NoDup_app in HN as (_ & HN & _). by apply (HN x).
    - intros ls. rewrite Tm, elem_of_app, G1, G2. split; [|tauto]. intros Hg. destruct (in_grid_lookup _ _ _ _ Hg Hl) as (x & Ex & Hx).
      rewrite Hp in Hx. apply elem_of_app in Hx as [Hx|Hx]; [left|right]; (split; [done|by exists x]). }
  apply Forall2_flip in H. destruct (Forall2_perm_r _ _ _ _ Ht H) as (ws & Ew & HW). rewrite Ew. apply Forall2_flip in HW.
  assert (HA : Forall2 (fun ls v => cell y ls = Some v) (t1 ++ t2) (vs1 ++ vs2)).
  { apply Forall2_app.
    - eapply Forall2_within; [exact H1|]. intros ls v Hx Hc. apply G1 in Hx as (_ & x & Ex & Hx). rewrite <-Hc. symmetry. by eapply (parts_c1 _ _ _ _ _ _ _ HP).
    - eapply Forall2_within; [exact H2|]. intros ls v Hx Hc. apply G2 in Hx as (_ & x & Ex & Hx). rewrite <-Hc. symmetry. by eapply (parts_c2 _ _ _ _ _ _ _ HP). }
  apply Permutation_eq. by eapply Forall2_det.
Qed.
Lemma tame_part op vs vs1 vs2 : vs ≡ₚ vs1 ++ vs2 -> tame_vals op vs -> tame_vals op vs1 /\ tame_vals op vs2.
Proof. intros Hp H. split; intros E v n Hv; apply (H E); rewrite Hp; apply elem_of_app; auto. Qed.
Lemma delete_insert_same {A} (L : list A) ax k : delete ax (<[ax := k]> L) = delete ax L.
Proof.
  revert ax. induction L as [|x L IH]; intros [|ax]; try done. change (x :: delete ax (<[ax := k]> L) = x :: delete ax L). f_equal. apply IH.
Qed.
Lemma parts_pooled op y a ax l k1 k2 y1 y2 axis b1 b2 b : valid y -> axis_is y a ax -> parts y ax l k1 k2 y1 y2 -> pool_op op -> (op = RSum -> no_inf y) -> axis = None \/ axis = Some a ->
  reduction_of op y1 axis b1 -> reduction_of op y2 axis b2 -> reduction_of op y axis b -> three_related (pooled op) b1 b2 b.
Proof.
  intros Hv Hax HP Hop Hi Haxis. pose proof (parts_l1 _ _ _ _ _ _ _ HP) as L1. pose proof (parts_l2 _ _ _ _ _ _ _ HP) as L2.
  assert (Len1 : length (llabel y1) = length (llabel y)) by (by rewrite L1, insert_length). assert (Len2 : length (llabel y2) = length (llabel y)) by (by rewrite L2, insert_length).
  unfold reduction_of, reduction_by. destruct Haxis as [-> | ->].
  - intros (vs1 & u1 & -> & V1 & R1) (vs2 & u2 & -> & V2 & R2) (vs & u & -> & V & R). simpl.
    pose proof (values_parts _ _ _ _ _ _ _ _ _ _ Hv HP V V1 V2) as Hp.
    destruct (tame_part op vs vs1 vs2) as [T1 T2]; [done| |by eapply (reduces_pooled op vs vs1 vs2)].
    intros E v n Hin En. apply (values_elem _ _ _ V) in Hin as (ls & _ & Hc). exact (no_inf_num _ _ _ _ (Hi E) Hc En).
  - intros (x1 & X1 & A1 & A2) (x2 & X2 & B1 & B2) (x & X & C1 & C2).
    assert (x = ax) as -> by (by eapply axis_is_fun).
    assert (x1 = ax) as ->. { eapply (axis_is_fun y1); [done|]. unfold axis_is in *. by rewrite Len1. }
    assert (x2 = ax) as ->. { eapply (axis_is_fun y2); [done|]. unfold axis_is in *. by rewrite Len2. }
    assert (HT : forall ls vs, lane_of y ax ls vs -> tame_vals op vs). { intros ls vs K E v n Hin En. exact (lane_quiet _ _ _ _ (Hi E) K v n Hin En). }
    destruct (decide (length (llabel y) = 1)) as [E|E].
    + destruct A1 as (vs1 & u1 & -> & V1 & R1); [lia|]. destruct B1 as (vs2 & u2 & -> & V2 & R2); [lia|]. destruct (C1 E) as (vs & u & -> & V & R). simpl.
      assert (Hz : ax = 0). { destruct Hax as [? _]. lia. }
      assert (Hp : vs ≡ₚ vs1 ++ vs2). { eapply lane_parts; [done| |done|done|done]. simpl. lia. }
      destruct (tame_part op vs vs1 vs2) as [T1 T2]; [done|by eapply HT|by eapply (reduces_pooled op vs vs1 vs2)].
    + assert (1 < length (llabel y)) as E'. { destruct Hax as [? _]. lia. }
      destruct A2 as (z1 & -> & V1 & M1 & R1); [lia|]. destruct B2 as (z2 & -> & V2 & M2 & R2); [lia|]. destruct (C2 E') as (z & -> & V & M & R).
      rewrite L1, delete_insert_same in M1. rewrite L2, delete_insert_same in M2. simpl. split_and!; [congruence|congruence|]. rewrite M2. intros ls Hg.
      destruct (R ls) as (vs & u & K & D & S); [by rewrite M|]. destruct (R1 ls) as (vs1 & u1 & K1 & D1 & S1); [by rewrite M1|]. destruct (R2 ls) as (vs2 & u2 & K2 & D2 & S2); [by rewrite M2|].
      assert (Hp : vs ≡ₚ vs1 ++ vs2).
      { eapply lane_parts; [done| |done|done|done]. rewrite (Forall2_length _ _ _ Hg), length_delete by (apply lookup_lt_is_Some; apply Hax). destruct Hax as [? _]. lia. }
      destruct (tame_part op vs vs1 vs2) as [T1 T2]; [done|by eapply HT|].
      destruct (reduces_pooled op vs vs1 vs2 u u1 u2) as (m1 & m2 & m & ? & ? & ? & ?); try done. eauto 15.
Qed.
Lemma part_nonempty (y y1 : larry) ax k : nonempty y -> k <> [] -> llabel y1 = <[ax := k]> (llabel y) -> nonempty y1.
Proof. intros Hne Hk E. unfold nonempty in *. rewrite E. by apply Forall_insert. Qed.
Theorem keep_pooled op y op1 op2 a ax l y1 y2 axis : pool_op op -> valid y -> nonempty y -> arithmetic (ldtype y) -> axis_is y a ax -> llabel y !! ax = Some l -> complementary op1 op2 l ->
  keep_label y op1 (Some a) = Ok y1 -> keep_label y op2 (Some a) = Ok y2 -> (op = RSum -> no_inf y) -> axis = None \/ axis = Some a ->
  exists b1 b2 b, larry_reduce op y1 axis = Ok b1 /\ larry_reduce op y2 axis = Ok b2 /\ larry_reduce op y axis = Ok b /\ three_related (pooled op) b1 b2 b.
Proof.
  intros Hop Hv Hne Ha Hax Hl Hc E1 E2 Hi Haxis. destruct (keep_parts y op1 op2 a ax l y1 y2) as (k1 & k2 & HP); try done.
  assert (Hnp : op <> RProd) by (by destruct Hop as [->|[->| ->]]).
  assert (HX : forall y', length (llabel y') = length (llabel y) -> axis_ok y' axis).
  { intros y' Hlen. destruct Haxis as [-> | ->]; [done|]. exists ax. unfold axis_is in *. by rewrite Hlen. }
  destruct (C33_reduce_succeeds op y axis) as (b & Eb & Rb); try done; [by apply HX|].
  destruct (C33_reduce_succeeds op y1 axis) as (b1 & Eb1 & Rb1); try done.
  { apply (parts_v1 _ _ _ _ _ _ _ HP). } { eapply part_nonempty; [done|apply (parts_ne1 _ _ _ _ _ _ _ HP)|apply (parts_l1 _ _ _ _ _ _ _ HP)]. }
  { by rewrite (parts_d1 _ _ _ _ _ _ _ HP). } { apply HX. by rewrite (parts_l1 _ _ _ _ _ _ _ HP), insert_length. }
  destruct (C33_reduce_succeeds op y2 axis) as (b2 & Eb2 & Rb2); try done.
  { apply (parts_v2 _ _ _ _ _ _ _ HP). } { eapply part_nonempty; [done|apply (parts_ne2 _ _ _ _ _ _ _ HP)|apply (parts_l2 _ _ _ _ _ _ _ HP)]. }
  { by rewrite (parts_d2 _ _ _ _ _ _ _ HP). } { apply HX. by rewrite (parts_l2 _ _ _ _ _ _ _ HP), insert_length. }
  exists b1, b2, b. split_and!; try done. by eapply parts_pooled.
Qed.
Theorem opposite_conditions op1 op2 l : opposite op1 op2 -> (exists z, z ∈ l /\ op_holds op1 z) -> (exists z, z ∈ l /\ ~ op_holds op1 z) -> complementary op1 op2 l.
Proof.
  assert (HL : forall a b, lab_lt a b -> ~ lab_le b a). { intros a b H K. by apply lab_le_lt in K. }
  assert (HK : forall a b, lab_lt a b \/ lab_le b a). { intros a b. destruct (decide (lab_lt a b)); [by left|right]. by apply lab_le_lt. }
  intros Ho H1 (w & Hw & Hn).
  assert (HX : forall z, op_holds op1 z /\ ~ op_holds op2 z \/ op_holds op2 z /\ ~ op_holds op1 z).
  { intros z. destruct Ho as [(v & -> & ->)|[(v & -> & ->)|[(v & -> & ->)|(v & -> & ->)]]]; simpl.
    - destruct (HK z v); [left|right]; split; auto. intros K. by apply (HL _ _ K).
    - destruct (HK v z); [right|left]; split; auto. intros K. by apply (HL _ _ K).
    - destruct (decide (z = v)); auto.
    - destruct (decide (z ∈ v)); auto. }
  split; [auto|split; [done|]]. exists w. split; [done|]. destruct (HX w) as [[? _]|[? _]]; done.
Qed.
