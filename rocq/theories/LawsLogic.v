(** Laws of comparisons and of [&] and [|]. *)
From Verif Require Export LawsFacts.
From Verif Require Import SpecFacts OpsFacts OpsLarry OpsMore NumFacts.

(** * Comparisons *)
Lemma num_same_comm a b : num_same a b <-> num_same b a.
Proof. unfold num_same. split; intros [-> ?]; done. Qed.
Lemma cmp_holds_mirror op v1 v2 : cmp_holds op v1 v2 <-> cmp_holds (cmp_mirror op) v2 v1.
Proof.
  assert (Hn : forall R R' : num -> num -> Prop, (forall a b, R a b <-> R' b a) ->
    (exists n1 n2, to_num v1 = Some n1 /\ to_num v2 = Some n2 /\ R n1 n2) <-> (exists n1 n2, to_num v2 = Some n1 /\ to_num v1 = Some n2 /\ R' n1 n2)).
  { intros R R' HR. split; intros (n1 & n2 & ? & ? & H); exists n2, n1; split_and!; try done; by apply HR. }
  destruct v1 as [a|a|a|a| |a], v2 as [b|b|b|b| |b]; simpl.
  all: try (destruct op; simpl; by apply Hn; intros x y; rewrite ?(num_same_comm x y)).
  destruct op; simpl; try tauto; split; intros; first [done|congruence|destruct H; [left; congruence|by right]].
Qed.
Lemma compare_mirror op y1 y2 o : valid y1 -> valid y2 -> same_kind (ldtype y1) (ldtype y2) ->
  larry_compare op y1 (OpLarry y2) = Ok o -> larry_compare (cmp_mirror op) y2 (OpLarry y1) = Ok o.
Proof.
  intros V1 V2 Hk Ho. assert (Hk' : same_kind (ldtype y2) (ldtype y1)) by (unfold same_kind in *; tauto).
  destruct (proj1 (compare_larry_iff op y1 y2 V1 V2 Hk) (ex_intro _ _ Ho)) as [N M]. destruct (proj2 (compare_larry_iff (cmp_mirror op) y2 y1 V2 V1 Hk')) as [o' Ho'].
  { split; [done|]. exact (meet_comm _ _ M). }
  rewrite Ho'. f_equal. destruct (compare_larry _ _ _ _ V1 V2 Hk Ho) as (z & -> & _ & Vz & Lz & Dz & Cz). destruct (compare_larry _ _ _ _ V2 V1 Hk' Ho') as (z' & -> & _ & Vz' & Lz' & Dz' & Cz').
  f_equal. symmetry. apply larry_ext; try done; [congruence|by apply (inner_labels_comm y1 y2 z z')|].
  intros ls Hg. apply Lz in Hg as [G1 G2]. apply valid_cell_grid in G1 as [v1 E1]; [|done]. apply valid_cell_grid in G2 as [v2 E2]; [|done].
  destruct (Cz ls v1 v2 E1 E2) as (b & -> & Hb). destruct (Cz' ls v2 v1 E2 E1) as (b' & -> & Hb'). do 2 f_equal. rewrite <-cmp_holds_mirror in Hb'. destruct b, b'; try done; exfalso; intuition congruence.
Qed.
(** [!=] is not [==], and without NaN [>=] is not [<]. *)
Lemma same_dec (a b : num) : num_same a b \/ ~ num_same a b.
Proof.
  unfold num_same. destruct (decide (a = b)) as [->|H]; [|right; tauto]. destruct b; [left|right|left|left]; try done; tauto.
Qed.
Lemma num_total a b : a <> NaN -> b <> NaN -> num_lt a b \/ num_same a b \/ num_lt b a.
Proof.
  intros Ha Hb. destruct a as [p| | |], b as [q| | |]; simpl; try done; try tauto; try (right; left; done).
  destruct (Qclt_le_dec p q) as [?|Hle]; [by left|]. destruct (Qcle_lt_or_eq _ _ Hle) as [?|E]; [by right; right|]. right. left. split; [by rewrite E|done].
Qed.
Lemma num_lt_excl a b : num_lt a b -> ~ num_same a b /\ ~ num_lt b a.
Proof.
  intros H. split.
  - intros [-> _]. destruct b; simpl in H; try done. exact (Qclt_not_eq _ _ H eq_refl).
  - destruct a, b; simpl in *; try done; try tauto. intros H'. exact (Qclt_not_le _ _ H (Qclt_le_weak _ _ H')).
Qed.
Lemma cmp_holds_not op v1 v2 : is_Some (to_num v1) -> is_Some (to_num v2) -> op = CEq \/ op = CNe \/ (v1 <> VFloat NaN /\ v2 <> VFloat NaN) ->
  cmp_holds (cmp_not op) v1 v2 <-> ~ cmp_holds op v1 v2.
Proof.
  intros [n1 E1] [n2 E2] Hn. assert (Hx : forall o, cmp_holds o v1 v2 <-> match o with CEq => num_same n1 n2 | CNe => ~ num_same n1 n2 | CLt => num_lt n1 n2 | CGt => num_lt n2 n1
      | CLe => num_lt n1 n2 \/ num_same n1 n2 | CGe => num_lt n2 n1 \/ num_same n1 n2 end).
  { intros o. destruct v1, v2; try done; unfold cmp_holds; (split; [intros (m1 & m2 & Ea & Eb & H); rewrite E1 in Ea; rewrite E2 in Eb; by simplify_eq|intros H; exists n1, n2; done]). }
  rewrite !Hx. pose proof (same_dec n1 n2) as Hs.
  destruct Hn as [-> |[-> |[Hn1 Hn2]]]; simpl; [tauto|tauto|].
  assert (N1 : n1 <> NaN) by (intros ->; destruct v1; vm_compute in E1; try discriminate E1; congruence). assert (N2 : n2 <> NaN) by (intros ->; destruct v2; vm_compute in E2; try discriminate E2; congruence).
  pose proof (num_total n1 n2 N1 N2) as Ht. pose proof (num_lt_excl n1 n2) as X1. pose proof (num_lt_excl n2 n1) as X2. rewrite (num_same_comm n2 n1) in X2.
  destruct op; simpl; tauto.
Qed.
Lemma bool_typed v : has_dtype DBool v = true -> exists b, v = VBool b.
Proof. destruct v; try done. eauto. Qed.
Lemma compare_not op y1 y2 z : valid y1 -> valid y2 -> arithmetic (ldtype y1) -> arithmetic (ldtype y2) -> op = CEq \/ op = CNe \/ (never_nan y1 /\ never_nan y2) ->
  larry_compare op y1 (OpLarry y2) = Ok (OLar z) -> exists z', larry_compare (cmp_not op) y1 (OpLarry y2) = Ok (OLar z') /\ larry_neg z = Ok z'.
Proof.
  intros V1 V2 A1 A2 Hn Ho. assert (Hk : same_kind (ldtype y1) (ldtype y2)) by (by left).
  destruct (proj2 (compare_larry_iff (cmp_not op) y1 y2 V1 V2 Hk) (proj1 (compare_larry_iff op y1 y2 V1 V2 Hk) (ex_intro _ _ Ho))) as [o' Ho'].
  destruct (compare_larry _ _ _ _ V1 V2 Hk Ho) as (z0 & [= <-] & N & Vz & Lz & Dz & Cz). destruct (compare_larry _ _ _ _ V1 V2 Hk Ho') as (z' & -> & _ & Vz' & Lz' & Dz' & Cz').
  exists z'. split; [done|]. destruct (proj1 (unary_ok z ltac:(rewrite Dz; unfold arithmetic; tauto))) as [m Hm]. rewrite Hm. f_equal.
  destruct (neg_spec _ _ Vz Hm) as (Vm & Lm & Dm & _ & Cm). apply larry_ext; try done; [congruence| |].
  - rewrite Lm. destruct Lz as (L & I & _), Lz' as (L' & I' & _). apply list_eq_axes with (lndim y1); [rewrite L; by apply valid_ndim|rewrite L'; by apply valid_ndim|].
    intros i r r' Hi E E'. destruct (lookup_lt_is_Some_2 (llabel y1) i) as [l1 E1]; [by rewrite valid_ndim|]. destruct (lookup_lt_is_Some_2 (llabel y2) i) as [l2 E2]; [rewrite valid_ndim by done; lia|].
    exact (inter_fun _ _ _ _ (I i _ _ _ E1 E2 E) (I' i _ _ _ E1 E2 E')).
  - intros ls Hg. rewrite Lm in Hg. apply Lz in Hg as [G1 G2]. apply valid_cell_grid in G1 as [v1 E1]; [|done]. apply valid_cell_grid in G2 as [v2 E2]; [|done].
    destruct (Cz ls v1 v2 E1 E2) as (b & Eb & Hb). destruct (Cz' ls v1 v2 E1 E2) as (b' & -> & Hb'). destruct (Cm ls _ Eb) as (w & -> & ->). do 2 f_equal.
    assert (T : forall y v, valid y -> arithmetic (ldtype y) -> cell y ls = Some v -> is_Some (to_num v)).
    { intros y v Vy Ay Ey. pose proof (valid_cell_typed _ _ _ Vy Ey) as T. destruct Ay as [H|[H|H]]; rewrite H in T; destruct v; try done; by eexists. }
    rewrite cmp_holds_not in Hb'.
    + destruct b, b'; try done; exfalso; intuition congruence.
    + by apply (T y1).
    + by apply (T y2).
    + destruct Hn as [?|[?|[X1 X2]]]; [tauto|tauto|]. right. right. split; intros ->; [by apply (X1 ls)|by apply (X2 ls)].
Qed.

(** * And and or *)
Lemma logic_kinds op y1 y2 z : valid y1 -> valid y2 -> larry_logic op y1 (OpLarry y2) = Ok z -> arithmetic (ldtype y1) /\ arithmetic (ldtype y2) /\ ldtype z = DBool /\ valid z /\ lndim y1 = lndim y2 /\ lndim z = lndim y1.
Proof.
  intros H1 H2 Hz. destruct (logic_combined _ _ _ _ H1 H2 Hz) as (Hc & ? & ? & ?). pose proof (combined_ndim _ _ _ _ Hc). unfold combined in Hc. tauto.
Qed.
Lemma logic_comm op y1 y2 z : valid y1 -> valid y2 -> larry_logic op y1 (OpLarry y2) = Ok z -> larry_logic op y2 (OpLarry y1) = Ok z.
Proof.
  intros V1 V2 Hz. destruct (logic_kinds _ _ _ _ V1 V2 Hz) as (A1 & A2 & Dz & Vz & N & _). destruct (proj2 (logic_larry_iff op y2 y1 V2 V1)) as [z' Hz'].
  { split_and!; try done. exact (meet_comm _ _ (logic_meets _ _ _ _ V1 V2 Hz)). }
  rewrite Hz'. f_equal. symmetry. destruct (logic_combined _ _ _ _ V1 V2 Hz) as (C & _). destruct (logic_combined _ _ _ _ V2 V1 Hz') as (C' & _ & _ & Dz').
  pose proof C as (_ & _ & _ & _ & I & Cc). pose proof C' as (_ & _ & _ & Vz' & I' & Cc').
  apply larry_ext; try done; [congruence|by apply (inner_labels_comm y1 y2 z z')|]. intros ls Hg. destruct (combined_cell _ _ _ _ ls C Hg) as (v1 & v2 & v & E1 & E2 & Ev & Fv).
  destruct (Cc' ls v2 v1 E2 E1) as [-> _]. rewrite Ev, <-Fv. do 2 f_equal. destruct op; simpl; [apply andb_comm|apply orb_comm].
Qed.
Lemma logic_assoc op y1 y2 y3 a z b : valid y1 -> valid y2 -> valid y3 ->
  larry_logic op y1 (OpLarry y2) = Ok a -> larry_logic op a (OpLarry y3) = Ok z -> larry_logic op y2 (OpLarry y3) = Ok b -> larry_logic op y1 (OpLarry b) = Ok z.
Proof.
  intros V1 V2 V3 Ha Hz Hb. destruct (logic_kinds _ _ _ _ V1 V2 Ha) as (K1 & K2 & Da & Va & N12 & Na). destruct (logic_kinds _ _ _ _ V2 V3 Hb) as (_ & K3 & Db & Vb & N23 & Nb).
  destruct (logic_combined _ _ _ _ V1 V2 Ha) as (Ca & _). destruct (logic_combined _ _ _ _ Va V3 Hz) as (Cz & _ & _ & Dz). destruct (logic_combined _ _ _ _ V2 V3 Hb) as (Cb & _).
  destruct (proj2 (logic_larry_iff op y1 b V1 Vb)) as [z' Hz'].
  { split_and!; try done; [lia|rewrite Db; unfold arithmetic; tauto|]. exact (meet_assoc _ _ _ _ _ _ _ _ _ Ca Cz Cb (logic_meets _ _ _ _ V1 V2 Ha) (logic_meets _ _ _ _ Va V3 Hz)). }
  destruct (logic_combined _ _ _ _ V1 Vb Hz') as (Cz' & _ & _ & Dz'). rewrite Hz'. f_equal. symmetry.
  apply (combined_assoc _ _ _ _ _ _ _ _ _ _ _ Ca Cz Cb Cz'); [congruence|]. intros v1 v2 v3 u w v v' _ _ _ [= <-] [= <-] [= <-] [= <-]. f_equal. destruct op; simpl; [symmetry; apply andb_assoc|symmetry; apply orb_assoc].
Qed.
Lemma logic_distr op y1 y2 y3 b z a c z' : valid y1 -> valid y2 -> valid y3 ->
  larry_logic (logic_other op) y2 (OpLarry y3) = Ok b -> larry_logic op y1 (OpLarry b) = Ok z ->
  larry_logic op y1 (OpLarry y2) = Ok a -> larry_logic op y1 (OpLarry y3) = Ok c -> larry_logic (logic_other op) a (OpLarry c) = Ok z' -> z = z'.
Proof.
  intros V1 V2 V3 Eb Ez Ea Ec Ez'. destruct (logic_kinds _ _ _ _ V2 V3 Eb) as (_ & _ & _ & Vb & _). destruct (logic_kinds _ _ _ _ V1 V2 Ea) as (_ & _ & _ & Va & _). destruct (logic_kinds _ _ _ _ V1 V3 Ec) as (_ & _ & _ & Vc & _).
  destruct (logic_combined _ _ _ _ V2 V3 Eb) as (Cb & _). destruct (logic_combined _ _ _ _ V1 Vb Ez) as (Cz & _ & _ & Dz). destruct (logic_combined _ _ _ _ V1 V2 Ea) as (Ca & _).
  destruct (logic_combined _ _ _ _ V1 V3 Ec) as (Cc & _). destruct (logic_combined _ _ _ _ Va Vc Ez') as (Cz' & _ & _ & Dz').
  apply (combined_distr _ _ _ _ _ _ _ _ _ _ _ _ _ Cb Cz Ca Cc Cz'); [congruence|]. intros ls v1 v2 v3 w v u t v' _ _ _ [= <-] [= <-] [= <-] [= <-] [= <-].
  f_equal. destruct op; simpl; destruct (val_truth v1), (val_truth v2), (val_truth v3); done.
Qed.
(** De Morgan. *)
Lemma logic_not op y1 y2 z n1 n2 m : valid y1 -> valid y2 -> ldtype y1 = DBool -> ldtype y2 = DBool -> larry_logic op y1 (OpLarry y2) = Ok z ->
  larry_neg y1 = Ok n1 -> larry_neg y2 = Ok n2 -> larry_neg z = Ok m -> larry_logic (logic_other op) n1 (OpLarry n2) = Ok m.
Proof.
  intros V1 V2 D1 D2 Hz H1 H2 Hm. destruct (logic_kinds _ _ _ _ V1 V2 Hz) as (A1 & A2 & Dz & Vz & N & _). destruct (logic_combined _ _ _ _ V1 V2 Hz) as (C & _).
  destruct (neg_spec _ _ V1 H1) as (Vn1 & L1 & Dn1 & _ & C1). destruct (neg_spec _ _ V2 H2) as (Vn2 & L2 & Dn2 & _ & C2). destruct (neg_spec _ _ Vz Hm) as (Vm & Lm & Dm & _ & Cm).
  destruct (proj2 (logic_larry_iff (logic_other op) n1 n2 Vn1 Vn2)) as [z' Hz'].
  { rewrite Dn1, Dn2. split_and!; try done; [rewrite <-(valid_ndim _ Vn1), <-(valid_ndim _ Vn2), L1, L2, !valid_ndim by done; done|]. pose proof (logic_meets _ _ _ _ V1 V2 Hz) as M. intros i l1 l2 E1 E2. rewrite L1 in E1. rewrite L2 in E2. by apply (M i). }
  rewrite Hz'. f_equal. symmetry. destruct (logic_combined _ _ _ _ Vn1 Vn2 Hz') as (C' & _ & _ & Dz'). pose proof C' as (_ & _ & _ & Vz' & _ & Cc').
  apply larry_ext; try done; [congruence|rewrite Lm; by apply (same_inner _ _ _ _ _ _ _ _ C C')|]. intros ls Hg. rewrite Lm in Hg. destruct (combined_cell _ _ _ _ ls C Hg) as (v1 & v2 & v & E1 & E2 & Ev & Fv).
  destruct (C1 ls v1 E1) as (w1 & Ew1 & Nw1). destruct (C2 ls v2 E2) as (w2 & Ew2 & Nw2). destruct (Cm ls v Ev) as (w & -> & Nw). destruct (Cc' ls w1 w2 Ew1 Ew2) as [-> _].
  pose proof (valid_cell_typed _ _ _ V1 E1) as T1. pose proof (valid_cell_typed _ _ _ V2 E2) as T2. rewrite D1 in T1. rewrite D2 in T2. apply bool_typed in T1 as [b1 ->]. apply bool_typed in T2 as [b2 ->].
  simpl in Nw1, Nw2. subst. injection Fv as <-. simpl in Nw. subst. do 2 f_equal. by destruct op, b1, b2.
Qed.
Lemma invert_is_neg y : ldtype y = DBool -> larry_invert y = larry_neg y.
Proof. unfold larry_invert, larry_neg, np_neg. change (nd_dtype (lx y)) with (ldtype y). by intros ->. Qed.
Lemma compare_invert op y1 y2 z : valid y1 -> valid y2 -> arithmetic (ldtype y1) -> arithmetic (ldtype y2) -> op = CEq \/ op = CNe \/ (never_nan y1 /\ never_nan y2) ->
  larry_compare op y1 (OpLarry y2) = Ok (OLar z) -> exists z', larry_compare (cmp_not op) y1 (OpLarry y2) = Ok (OLar z') /\ larry_invert z = Ok z'.
Proof.
  intros V1 V2 A1 A2 Hn Ho. destruct (compare_not _ _ _ _ V1 V2 A1 A2 Hn Ho) as (z' & ? & ?). exists z'. split; [done|]. rewrite invert_is_neg; [done|].
  destruct (compare_larry _ _ _ _ V1 V2 ltac:(by left) Ho) as (z0 & [= <-] & _ & _ & _ & Dz & _). done.
Qed.
Lemma logic_invert op y1 y2 z n1 n2 m : valid y1 -> valid y2 -> larry_logic op y1 (OpLarry y2) = Ok z ->
  larry_invert y1 = Ok n1 -> larry_invert y2 = Ok n2 -> larry_invert z = Ok m -> larry_logic (logic_other op) n1 (OpLarry n2) = Ok m.
Proof.
  intros V1 V2 Hz H1 H2 Hm. assert (D1 := proj1 (invert_ok y1) (ex_intro _ _ H1)). assert (D2 := proj1 (invert_ok y2) (ex_intro _ _ H2)). assert (D := proj1 (invert_ok z) (ex_intro _ _ Hm)).
  rewrite invert_is_neg in H1, H2, Hm by done. by apply (logic_not op y1 y2 z n1 n2 m).
Qed.
Lemma logic_same op y z : valid y -> ldtype y = DBool -> larry_logic op y (OpLarry y) = Ok z -> z = y.
Proof.
  intros Hv Hd Hz. destruct (logic_combined _ _ _ _ Hv Hv Hz) as (Cz & _ & _ & Dz). pose proof Cz as (_ & _ & _ & Vz & _ & Hc). 
  assert (L : llabel z = llabel y).
  { pose proof (combined_ndim _ _ _ _ Cz) as N. apply list_eq_axes with (lndim y); [rewrite valid_ndim; done|by apply valid_ndim|].
    intros i r r' Hi E E'. destruct (combined_axis _ _ _ _ i Cz Hi) as (l1 & l2 & l & E1 & E2 & E3 & I). simplify_eq. by apply inter_same in I. }
  apply larry_ext; try done; [congruence|]. intros ls Hg. rewrite L in Hg. apply valid_cell_grid in Hg as [v E]; [|done]. destruct (Hc ls v v E E) as [-> _]. rewrite E.
  pose proof (valid_cell_typed _ _ _ Hv E) as T. rewrite Hd in T. apply bool_typed in T as [b ->]. do 2 f_equal. by destruct op, b.
Qed.
