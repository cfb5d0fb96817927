(** Laws of the operators between larrys. *)
From Verif Require Import SpecFacts NDArrayFacts OpsFacts OpsLarry OpsMore NumFacts.
From Verif Require CommuteFacts.
From Verif Require Export SpecOps Ops SpecLaws.

(** * Labels *)
Lemma inter_same l u : inter_label l l u -> u = l.
Proof. unfold inter_label. by rewrite decide_True. Qed.
Lemma inter_elem l1 l2 u : inter_label l1 l2 u -> forall x, x ∈ u <-> x ∈ l1 /\ x ∈ l2.
Proof. unfold inter_label. case_decide as H; [intros -> x; subst; tauto|by intros [_ M]]. Qed.
Lemma inter_fun l1 l2 u u' : inter_label l1 l2 u -> inter_label l1 l2 u' -> u = u'.
Proof.
  unfold inter_label. case_decide; [congruence|]. intros [S1 M1] [S2 M2]. eapply lt_sorted_unique; try done. intros x. by rewrite M1, M2.
Qed.
(** Either all lists are the same or the last one is sorted. *)
Lemma inter_sorted l1 l2 u : inter_label l1 l2 u -> (l1 = l2 /\ u = l1) \/ (l1 <> l2 /\ StronglySorted lab_lt u).
Proof. unfold inter_label. case_decide; [by left|intros [S _]; by right]. Qed.
Lemma inter_within l1 l2 u : StronglySorted lab_lt l2 -> (forall x, x ∈ l2 -> x ∈ l1) -> inter_label l1 l2 u -> u = l2.
Proof.
  intros S H I. pose proof (inter_elem _ _ _ I) as M. destruct (inter_sorted _ _ _ I) as [[-> ->]|[_ S']]; [done|].
  eapply lt_sorted_unique; try done. intros x. rewrite M. split; [tauto|]. auto.
Qed.
Lemma inter_within' l1 l2 u : StronglySorted lab_lt l1 -> (forall x, x ∈ l1 -> x ∈ l2) -> inter_label l1 l2 u -> u = l1.
Proof.
  intros S H I. pose proof (inter_elem _ _ _ I) as M. destruct (inter_sorted _ _ _ I) as [[-> ->]|[_ S']]; [done|].
  eapply lt_sorted_unique; try done. intros x. rewrite M. split; [tauto|]. auto.
Qed.
Lemma inter_assoc l1 l2 l3 a z b z' : inter_label l1 l2 a -> inter_label a l3 z -> inter_label l2 l3 b -> inter_label l1 b z' -> z = z'.
Proof.
  intros Ha Hz Hb Hz'. pose proof (inter_elem _ _ _ Ha) as Ma. pose proof (inter_elem _ _ _ Hz) as Mz. pose proof (inter_elem _ _ _ Hb) as Mb. pose proof (inter_elem _ _ _ Hz') as Mz'.
  destruct (inter_sorted _ _ _ Ha) as [[-> ->]|[Na Sa]].
  - assert (b = z) as -> by (by eapply inter_fun). destruct (inter_sorted _ _ _ Hz) as [[-> ->]|[_ Sz]]; [symmetry; by apply inter_same in Hz'|].
    symmetry. eapply inter_within; [exact Sz| |exact Hz']. intros x Hx. by apply Mz in Hx as [? _].
  - destruct (inter_sorted _ _ _ Hb) as [[-> ->]|[Nb Sb]].
    + assert (z' = a) as -> by (by eapply inter_fun). eapply inter_within'; [exact Sa| |exact Hz]. intros x Hx. by apply Ma in Hx as [_ ?].
    + assert (Sz : StronglySorted lab_lt z) by (destruct (inter_sorted _ _ _ Hz) as [[-> ->]|[_ ?]]; done).
      assert (Sz' : StronglySorted lab_lt z') by (destruct (inter_sorted _ _ _ Hz') as [[-> ->]|[_ ?]]; done).
      eapply lt_sorted_unique; try done. intros x. rewrite Mz, Ma, Mz', Mb. tauto.
Qed.
Lemma inter_distr l1 l2 l3 b z a c z' : inter_label l2 l3 b -> inter_label l1 b z -> inter_label l1 l2 a -> inter_label l1 l3 c -> inter_label a c z' -> z = z'.
Proof.
  intros Hb Hz Ha Hc Hz'. pose proof (inter_elem _ _ _ Ha) as Ma. pose proof (inter_elem _ _ _ Hz) as Mz. pose proof (inter_elem _ _ _ Hb) as Mb. pose proof (inter_elem _ _ _ Hz') as Mz'. pose proof (inter_elem _ _ _ Hc) as Mc.
  destruct (inter_sorted _ _ _ Hb) as [[-> ->]|[Nb Sb]].
  - assert (c = a) as -> by (by eapply inter_fun). apply inter_same in Hz' as ->. by eapply inter_fun.
  - destruct (inter_sorted _ _ _ Ha) as [[-> ->]|[Na Sa]].
    + assert (c = b) as -> by (by eapply inter_fun). by eapply inter_fun.
    + destruct (inter_sorted _ _ _ Hc) as [[-> ->]|[Nc Sc]].
      * assert (b = a) as ->; [|by eapply inter_label_comm].
        eapply lt_sorted_unique; try done. intros x. rewrite Mb, Ma. tauto.
      * assert (Sz : StronglySorted lab_lt z) by (destruct (inter_sorted _ _ _ Hz) as [[-> ->]|[_ ?]]; done).
        assert (Sz' : StronglySorted lab_lt z') by (destruct (inter_sorted _ _ _ Hz') as [[-> ->]|[_ ?]]; done).
        eapply lt_sorted_unique; try done. intros x. rewrite Mz, Mb, Mz', Ma, Mc. tauto.
Qed.

(** * Operators *)
(** What is known of an operator's result. *)
Definition combined (F : val -> val -> option val) (y1 y2 z : larry) : Prop :=
  valid y1 /\ valid y2 /\ lndim y1 = lndim y2 /\ valid z /\ inner_labels y1 y2 z /\
  forall ls v1 v2, cell y1 ls = Some v1 -> cell y2 ls = Some v2 -> cell z ls = F v1 v2 /\ is_Some (cell z ls).
Lemma arith_combined op y1 y2 z : valid y1 -> valid y2 -> larry_arith op y1 (OpLarry y2) = Ok z ->
  combined (arith_elem op (ldtype z)) y1 y2 z /\ arith_dtype op (ldtype y1) (ldtype y2) = Ok (ldtype z).
Proof.
  intros H1 H2 Hz. destruct (larry_binary_spec _ _ _ _ _ _ (np_arith_pointwise op) H1 H2 Hz) as (Hnd & Hv & HL & HD & Hc).
  assert (Hdt : arith_dtype op (ldtype y1) (ldtype y2) = Ok (ldtype z)) by (by apply arith_dtype_spec). split; [|done]. unfold combined. split_and!; try done.
  intros ls v1 v2 E1 E2. destruct (Hc ls v1 v2 E1 E2) as (v & E & dt & Hdt' & He & _). rewrite Hdt in Hdt'. injection Hdt' as <-. rewrite E. by split.
Qed.
Lemma logic_combined op y1 y2 z : valid y1 -> valid y2 -> larry_logic op y1 (OpLarry y2) = Ok z ->
  combined (fun u v => Some (VBool (logic_value op u v))) y1 y2 z /\ arithmetic (ldtype y1) /\ arithmetic (ldtype y2) /\ ldtype z = DBool.
Proof.
  intros H1 H2 Hz. destruct (larry_binary_spec _ _ _ _ _ _ (np_logic_pointwise op) H1 H2 Hz) as (Hnd & Hv & HL & (A1 & A2 & HD) & Hc).
  unfold combined. split_and!; try done. intros ls v1 v2 E1 E2. destruct (Hc ls v1 v2 E1 E2) as (v & E & ->). rewrite E. by split.
Qed.
Lemma combined_ndim F y1 y2 z : combined F y1 y2 z -> lndim z = lndim y1.
Proof. intros (H1 & _ & _ & Hz & (HL & _) & _). by rewrite <-(valid_ndim _ Hz), <-(valid_ndim _ H1). Qed.
Lemma combined_axis F y1 y2 z i : combined F y1 y2 z -> i < lndim y1 -> exists l1 l2 r, llabel y1 !! i = Some l1 /\ llabel y2 !! i = Some l2 /\ llabel z !! i = Some r /\ inter_label l1 l2 r.
Proof.
  intros Hc Hi. pose proof (combined_ndim _ _ _ _ Hc) as Hz. destruct Hc as (H1 & H2 & Hnd & Hv & (HL & I & _) & _).
  pose proof (valid_ndim _ H1). pose proof (valid_ndim _ H2). pose proof (valid_ndim _ Hv).
  destruct (lookup_lt_is_Some_2 (llabel y1) i) as [l1 E1]; [lia|]. destruct (lookup_lt_is_Some_2 (llabel y2) i) as [l2 E2]; [lia|]. destruct (lookup_lt_is_Some_2 (llabel z) i) as [r E3]; [lia|].
  exists l1, l2, r. split_and!; try done. by eapply I.
Qed.
Lemma combined_cell F y1 y2 z ls : combined F y1 y2 z -> in_grid (llabel z) ls -> exists v1 v2 v, cell y1 ls = Some v1 /\ cell y2 ls = Some v2 /\ cell z ls = Some v /\ F v1 v2 = Some v.
Proof.
  intros (H1 & H2 & _ & Hv & (_ & _ & G) & Hc) Hg. apply G in Hg as [G1 G2]. apply valid_cell_grid in G1 as [v1 E1]; [|done]. apply valid_cell_grid in G2 as [v2 E2]; [|done].
  destruct (Hc ls v1 v2 E1 E2) as [E [v Ev]]. exists v1, v2, v. split_and!; try done. by rewrite <-E.
Qed.
Lemma combined_grid F y1 y2 z ls : combined F y1 y2 z -> in_grid (llabel z) ls -> in_grid (llabel y1) ls /\ in_grid (llabel y2) ls.
Proof. intros (_ & _ & _ & _ & (_ & _ & G) & _). apply G. Qed.
Lemma list_eq_axes (L L' : list (list lab)) n : length L = n -> length L' = n -> (forall i r r', i < n -> L !! i = Some r -> L' !! i = Some r' -> r = r') -> L = L'.
Proof. intros H H' Hi. apply list_eq_same_length with n; [done|done|]. intros i x y Hl Hx Hy. by eapply Hi. Qed.

Lemma combined_assoc F1 F2 F3 F4 y1 y2 y3 a z b z' :
  combined F1 y1 y2 a -> combined F2 a y3 z -> combined F3 y2 y3 b -> combined F4 y1 b z' -> ldtype z = ldtype z' ->
  (forall v1 v2 v3 u w v v', has_dtype (ldtype y1) v1 = true -> has_dtype (ldtype y2) v2 = true -> has_dtype (ldtype y3) v3 = true ->
     F1 v1 v2 = Some u -> F2 u v3 = Some v -> F3 v2 v3 = Some w -> F4 v1 w = Some v' -> v = v') -> z = z'.
Proof.
  intros Ca Cz Cb Cz' Hd HF. pose proof (combined_ndim _ _ _ _ Ca) as Na. pose proof (combined_ndim _ _ _ _ Cz) as Nz. pose proof (combined_ndim _ _ _ _ Cb) as Nb. pose proof (combined_ndim _ _ _ _ Cz') as Nz'.
  assert (V : valid y1 /\ valid y2 /\ valid y3 /\ valid z /\ valid z') by (unfold combined in *; tauto). destruct V as (V1 & V2 & V3 & Vz & Vz').
  assert (N : lndim y1 = lndim y2 /\ lndim a = lndim y3) by (unfold combined in *; tauto). destruct N as (N12 & Na3).
  apply larry_ext; try done.
  - apply list_eq_axes with (lndim y1); [rewrite valid_ndim by done; lia..|]. intros i r r' Hi E E'.
    destruct (combined_axis _ _ _ _ i Ca) as (l1 & l2 & la & E1 & E2 & Ea & I1); [done|]. destruct (combined_axis _ _ _ _ i Cz) as (la' & l3 & lz & Ea' & E3 & Ez & I2); [lia|].
    destruct (combined_axis _ _ _ _ i Cb) as (l2' & l3' & lb & E2' & E3' & Eb & I3); [lia|]. destruct (combined_axis _ _ _ _ i Cz') as (l1' & lb' & lz' & E1' & Eb' & Ez' & I4); [lia|].
    simplify_eq. exact (inter_assoc _ _ _ _ _ _ _ I1 I2 I3 I4).
  - intros ls Hg. destruct (combined_cell _ _ _ _ ls Cz Hg) as (u & v3 & v & Eu & E3 & Ev & F2v). destruct (combined_grid _ _ _ _ ls Cz Hg) as [Ga _].
    destruct (combined_cell _ _ _ _ ls Ca Ga) as (v1 & v2 & u' & E1 & E2 & Eu' & F1v). simplify_eq.
    destruct Cb as (_ & _ & _ & Vb & (_ & _ & Gb) & Hb). destruct (Hb ls v2 v3 E2 E3) as [Fb [w Ew]]. destruct Cz' as (_ & _ & _ & _ & _ & Hz'). destruct (Hz' ls v1 w E1 Ew) as [Fz [v' Ev']].
    rewrite Ev, Ev'. f_equal. apply (HF v1 v2 v3 u w v v'); try done; [by eapply valid_cell_typed..|congruence|congruence].
Qed.
Lemma combined_distr F1 F2 F3 F4 F5 y1 y2 y3 b z a c z' :
  combined F1 y2 y3 b -> combined F2 y1 b z -> combined F3 y1 y2 a -> combined F4 y1 y3 c -> combined F5 a c z' -> ldtype z = ldtype z' ->
  (forall ls v1 v2 v3 w v u t v', cell y1 ls = Some v1 -> has_dtype (ldtype y2) v2 = true -> has_dtype (ldtype y3) v3 = true ->
     F1 v2 v3 = Some w -> F2 v1 w = Some v -> F3 v1 v2 = Some u -> F4 v1 v3 = Some t -> F5 u t = Some v' -> v = v') -> z = z'.
Proof.
  intros Cb Cz Ca Cc Cz' Hd HF. pose proof (combined_ndim _ _ _ _ Ca) as Na. pose proof (combined_ndim _ _ _ _ Cz) as Nz. pose proof (combined_ndim _ _ _ _ Cb) as Nb. pose proof (combined_ndim _ _ _ _ Cz') as Nz'. pose proof (combined_ndim _ _ _ _ Cc) as Nc.
  assert (V : valid y1 /\ valid y2 /\ valid y3 /\ valid z /\ valid z') by (unfold combined in *; tauto). destruct V as (V1 & V2 & V3 & Vz & Vz').
  assert (N : lndim y1 = lndim y2) by (unfold combined in *; tauto).
  apply larry_ext; try done.
  - apply list_eq_axes with (lndim y1); [rewrite valid_ndim by done; lia..|]. intros i r r' Hi E E'.
    destruct (combined_axis _ _ _ _ i Cb) as (l2 & l3 & lb & E2 & E3 & Eb & I1); [lia|]. destruct (combined_axis _ _ _ _ i Cz) as (l1 & lb' & lz & E1 & Eb' & Ez & I2); [lia|].
    destruct (combined_axis _ _ _ _ i Ca) as (l1' & l2' & la & E1' & E2' & Ea & I3); [lia|]. destruct (combined_axis _ _ _ _ i Cc) as (l1'' & l3' & lc & E1'' & E3' & Ec & I4); [lia|].
    destruct (combined_axis _ _ _ _ i Cz') as (la' & lc' & lz' & Ea' & Ec' & Ez' & I5); [lia|].
    simplify_eq. exact (inter_distr _ _ _ _ _ _ _ _ I1 I2 I3 I4 I5).
  - intros ls Hg. destruct (combined_cell _ _ _ _ ls Cz Hg) as (v1 & w & v & E1 & Ew & Ev & F2v). destruct (combined_grid _ _ _ _ ls Cz Hg) as [_ Gb].
    destruct (combined_cell _ _ _ _ ls Cb Gb) as (v2 & v3 & w' & E2 & E3 & Ew' & F1v). simplify_eq.
    destruct Ca as (_ & _ & _ & _ & _ & Ha). destruct (Ha ls v1 v2 E1 E2) as [Fa [u Eu]]. destruct Cc as (_ & _ & _ & _ & _ & Hc). destruct (Hc ls v1 v3 E1 E3) as [Fc [t Et]].
    destruct Cz' as (_ & _ & _ & _ & _ & Hz'). destruct (Hz' ls u t Eu Et) as [Fz [v' Ev']].
    rewrite Ev, Ev'. f_equal. apply (HF ls v1 v2 v3 w v u t v'); try done; [by eapply valid_cell_typed..|congruence|congruence|congruence].
Qed.

(** * When the last of the calls succeeds *)
Definition labels_meet (y1 y2 : larry) : Prop :=
  forall i l1 l2, llabel y1 !! i = Some l1 -> llabel y2 !! i = Some l2 -> l1 = l2 \/ all_comparable (filter (fun x => x ∈ l2) l1).
Lemma meet_comm y1 y2 : labels_meet y1 y2 -> labels_meet y2 y1.
Proof.
  intros H i l1 l2 E1 E2. destruct (H i l2 l1 E2 E1) as [->|Hc]; [by left|right]. intros a b. rewrite !elem_of_list_filter. intros [? ?] [? ?]. apply Hc; by rewrite elem_of_list_filter.
Qed.
Lemma meet_assoc F1 F2 F3 y1 y2 y3 a z b : combined F1 y1 y2 a -> combined F2 a y3 z -> combined F3 y2 y3 b ->
  labels_meet y1 y2 -> labels_meet a y3 -> labels_meet y1 b.
Proof.
  intros Ca Cz Cb H1 H2 i l1 lb E1 Eb. pose proof (combined_ndim _ _ _ _ Ca) as Na. assert (V1 : valid y1 /\ lndim y1 = lndim y2 /\ lndim a = lndim y3) by (unfold combined in *; tauto). destruct V1 as (V1 & N1 & N3).
  assert (Hi : i < lndim y1) by (rewrite <-(valid_ndim _ V1); by eapply lookup_lt_Some).
  destruct (combined_axis _ _ _ _ i Ca) as (l1' & l2 & la & E1' & E2 & Ea & I1); [done|]. destruct (combined_axis _ _ _ _ i Cb) as (l2' & l3 & lb' & E2' & E3 & Eb' & I3); [lia|]. simplify_eq.
  destruct (H1 i l1 l2 E1 E2) as [->|Hc].
  - apply inter_same in I1 as ->. destruct (H2 i l2 l3 Ea E3) as [->|Hc]; [left; symmetry; by apply inter_same|]. right.
    intros x y. rewrite !elem_of_list_filter. rewrite !(inter_elem _ _ _ I3). intros [[? ?] ?] [[? ?] ?]. apply Hc; by rewrite elem_of_list_filter.
  - right. intros x y. rewrite !elem_of_list_filter. rewrite !(inter_elem _ _ _ I3). intros [[? ?] ?] [[? ?] ?]. apply Hc; by rewrite elem_of_list_filter.
Qed.
Lemma arith_meets op y1 y2 z : valid y1 -> valid y2 -> larry_arith op y1 (OpLarry y2) = Ok z -> labels_meet y1 y2.
Proof. intros H1 H2 Hz. destruct (proj1 (arith_larry_iff op y1 y2 H1 H2) (ex_intro _ _ Hz)) as (_ & _ & _ & H). exact H. Qed.
Lemma logic_meets op y1 y2 z : valid y1 -> valid y2 -> larry_logic op y1 (OpLarry y2) = Ok z -> labels_meet y1 y2.
Proof. intros H1 H2 Hz. destruct (proj1 (logic_larry_iff op y1 y2 H1 H2) (ex_intro _ _ Hz)) as (_ & _ & _ & H). exact H. Qed.
Lemma arith_kinds op y1 y2 z : valid y1 -> valid y2 -> larry_arith op y1 (OpLarry y2) = Ok z -> arithmetic (ldtype y1) /\ arithmetic (ldtype y2) /\ arithmetic (ldtype z) /\ valid z /\ lndim y1 = lndim y2 /\ lndim z = lndim y1.
Proof.
  intros H1 H2 Hz. destruct (arith_combined _ _ _ _ H1 H2 Hz) as [Hc Hd]. apply arith_dtype_spec in Hd as (A1 & A2 & A3). pose proof (combined_ndim _ _ _ _ Hc). unfold combined in Hc.
  split_and!; try tauto. unfold arith_result in A3. rewrite A3. unfold arithmetic. repeat case_decide; tauto.
Qed.

Lemma arith_valid op y1 y2 z : valid y1 -> valid y2 -> larry_arith op y1 (OpLarry y2) = Ok z -> valid z.
Proof. intros H1 H2 Hz. by destruct (arith_kinds _ _ _ _ H1 H2 Hz) as (_ & _ & _ & ? & _). Qed.

(** * Arithmetic *)
Lemma arith_commutes op y1 y2 z : op = AAdd \/ op = AMul -> valid y1 -> valid y2 -> larry_arith op y1 (OpLarry y2) = Ok z -> larry_arith op y2 (OpLarry y1) = Ok z.
Proof.
  intros Hop H1 H2 Hz. destruct (proj2 (arith_larry_iff op y2 y1 H2 H1)) as [z' Hz'].
  - destruct (arith_kinds _ _ _ _ H1 H2 Hz) as (? & ? & _ & _ & ? & _). split_and!; try done. by eapply meet_comm, arith_meets.
  - rewrite Hz'. f_equal. symmetry. by apply (arith_comm op y1 y2 z z').
Qed.
Ltac elems := repeat (cbn [arith_elem to_num to_int to_bool float_arith int_arith bool_arith mbind option_bind];
  match goal with |- Some _ = Some _ -> _ => let H := fresh in intros H; apply (inj Some) in H; subst end).
Lemma bool_and_Z b c : (if b && c then 1 else 0)%Z = ((if b then 1 else 0) * (if c then 1 else 0))%Z.
Proof. by destruct b, c. Qed.
Lemma arith_elem_assoc op d1 d2 d3 d12 d d23 d' v1 v2 v3 u w v v' : op = AAdd /\ unmixed d1 d2 d3 \/ op = AMul ->
  arith_dtype op d1 d2 = Ok d12 -> arith_dtype op d12 d3 = Ok d -> arith_dtype op d2 d3 = Ok d23 -> arith_dtype op d1 d23 = Ok d' ->
  has_dtype d1 v1 = true -> has_dtype d2 v2 = true -> has_dtype d3 v3 = true ->
  arith_elem op d12 v1 v2 = Some u -> arith_elem op d u v3 = Some v -> arith_elem op d23 v2 v3 = Some w -> arith_elem op d' v1 w = Some v' ->
  d = d' /\ v = v'.
Proof.
  intros Hop D1 D2 D3 D4 T1 T2 T3. destruct Hop as [[-> [Hx Hy]]| ->].
  all: destruct d1, d2, d3; try done; simpl in D1, D3; injection D1 as <-; injection D3 as <-; simpl in D2, D4; try done; injection D2 as <-; injection D4 as <-; try (by (specialize (Hx eq_refl eq_refl) || specialize (Hy eq_refl eq_refl))).
  all: destruct v1; try done; destruct v2; try done; destruct v3; try done; elems; (split; [done|]); f_equal.
  all: rewrite ?bool_and_Z, <-?num_add_Z, <-?num_mul_Z, ?num_add_assoc, ?num_mul_assoc; try done; try ring.
  all: by repeat match goal with b : bool |- _ => destruct b end.
Qed.

Lemma assoc_dtype op d1 d2 d3 d12 d d23 d' : op = AAdd /\ unmixed d1 d2 d3 \/ op = AMul ->
  arith_dtype op d1 d2 = Ok d12 -> arith_dtype op d12 d3 = Ok d -> arith_dtype op d2 d3 = Ok d23 -> arith_dtype op d1 d23 = Ok d' -> d = d'.
Proof.
  intros Hop D1 D2 D3 D4. destruct Hop as [[-> _]| ->]; destruct d1, d2, d3; try done; simpl in D1, D3; injection D1 as <-; injection D3 as <-; simpl in D2, D4; try done; injection D2 as <-; injection D4 as <-; done.
Qed.
Lemma arith_assoc op y1 y2 y3 a z b : op = AAdd /\ unmixed (ldtype y1) (ldtype y2) (ldtype y3) \/ op = AMul -> valid y1 -> valid y2 -> valid y3 ->
  larry_arith op y1 (OpLarry y2) = Ok a -> larry_arith op a (OpLarry y3) = Ok z -> larry_arith op y2 (OpLarry y3) = Ok b ->
  larry_arith op y1 (OpLarry b) = Ok z.
Proof.
  intros Hop V1 V2 V3 Ha Hz Hb. destruct (arith_kinds _ _ _ _ V1 V2 Ha) as (K1 & K2 & Ka & Va & N12 & Na). destruct (arith_kinds _ _ _ _ V2 V3 Hb) as (_ & K3 & Kb & Vb & N23 & Nb).
  destruct (arith_combined _ _ _ _ V1 V2 Ha) as [Ca Da]. destruct (arith_combined _ _ _ _ Va V3 Hz) as [Cz Dz]. destruct (arith_combined _ _ _ _ V2 V3 Hb) as [Cb Db].
  destruct (proj2 (arith_larry_iff op y1 b V1 Vb)) as [z' Hz'].
  { split_and!; try done; [lia|]. apply (meet_assoc _ _ _ _ _ _ _ _ _ Ca Cz Cb); by eapply arith_meets. }
  destruct (arith_combined _ _ _ _ V1 Vb Hz') as [Cz' Dz']. rewrite Hz'. f_equal. symmetry.
  assert (Hd : ldtype z = ldtype z') by (by eapply assoc_dtype).
  apply (combined_assoc _ _ _ _ _ _ _ _ _ _ _ Ca Cz Cb Cz' Hd). intros v1 v2 v3 u w v v' T1 T2 T3 E1 E2 E3 E4.
  by destruct (arith_elem_assoc op _ _ _ _ _ _ _ v1 v2 v3 u w v v' Hop Da Dz Db Dz' T1 T2 T3 E1 E2 E3 E4).
Qed.

(** * Distribution *)
Lemma mul_add_distr a b c : is_inf a = false -> num_mul a (num_add b c) = num_add (num_mul a b) (num_mul a c).
Proof.
  intros Ha. destruct a as [p| | |]; try done; destruct b as [q| | |], c as [r| | |]; simpl; try done; unfold inf_sign; try (destruct (Qc_ltb 0 p), (Qc_ltb p 0); done).
  f_equal. ring.
Qed.
Lemma distr_dtype d1 d2 d3 d23 d d12 d13 d' :
  arith_dtype AAdd d2 d3 = Ok d23 -> arith_dtype AMul d1 d23 = Ok d -> arith_dtype AMul d1 d2 = Ok d12 -> arith_dtype AMul d1 d3 = Ok d13 -> arith_dtype AAdd d12 d13 = Ok d' -> d = d'.
Proof. intros D1 D2 D3 D4 D5. destruct d1, d2, d3; try done; simpl in D1, D3, D4; try done; injection D1 as <-; injection D3 as <-; injection D4 as <-; simpl in D2, D5; congruence. Qed.
Lemma arith_elem_distr d1 d2 d3 d23 d d12 d13 d' v1 v2 v3 w v u t v' : (d2 = DBool -> d3 = DBool -> d1 = DBool) -> v1 <> VFloat PInf -> v1 <> VFloat NInf ->
  arith_dtype AAdd d2 d3 = Ok d23 -> arith_dtype AMul d1 d23 = Ok d -> arith_dtype AMul d1 d2 = Ok d12 -> arith_dtype AMul d1 d3 = Ok d13 -> arith_dtype AAdd d12 d13 = Ok d' ->
  has_dtype d1 v1 = true -> has_dtype d2 v2 = true -> has_dtype d3 v3 = true ->
  arith_elem AAdd d23 v2 v3 = Some w -> arith_elem AMul d v1 w = Some v -> arith_elem AMul d12 v1 v2 = Some u -> arith_elem AMul d13 v1 v3 = Some t -> arith_elem AAdd d' u t = Some v' -> v = v'.
Proof.
  intros Hb HP HN D1 D2 D3 D4 D5 T1 T2 T3. destruct d1, d2, d3; try done; try (by specialize (Hb eq_refl eq_refl)); simpl in D1, D3, D4; injection D1 as <-; injection D3 as <-; injection D4 as <-; simpl in D2, D5; injection D2 as <-; injection D5 as <-.
  all: destruct v1; try done; destruct v2; try done; destruct v3; try done; elems; f_equal.
  all: rewrite ?bool_and_Z, <-?num_add_Z, <-?num_mul_Z; try done; try ring.
  all: try (apply mul_add_distr; by destruct n).
  all: try (by rewrite mul_add_distr, ?num_mul_Z).
  all: by repeat match goal with b : bool |- _ => destruct b end.
Qed.
Lemma arith_distr y1 y2 y3 b z a c z' : (ldtype y2 = DBool -> ldtype y3 = DBool -> ldtype y1 = DBool) -> no_infinite y1 -> valid y1 -> valid y2 -> valid y3 ->
  larry_arith AAdd y2 (OpLarry y3) = Ok b -> larry_arith AMul y1 (OpLarry b) = Ok z ->
  larry_arith AMul y1 (OpLarry y2) = Ok a -> larry_arith AMul y1 (OpLarry y3) = Ok c -> larry_arith AAdd a (OpLarry c) = Ok z' -> z = z'.
Proof.
  intros Hb Hi V1 V2 V3 Eb Ez Ea Ec Ez'.
  assert (V : valid a /\ valid b /\ valid c) by (split_and!; [exact (arith_valid _ _ _ _ V1 V2 Ea)|exact (arith_valid _ _ _ _ V2 V3 Eb)|exact (arith_valid _ _ _ _ V1 V3 Ec)]). destruct V as (Va & Vb & Vc).
  destruct (arith_combined _ _ _ _ V2 V3 Eb) as [Cb Db]. destruct (arith_combined _ _ _ _ V1 Vb Ez) as [Cz Dz]. destruct (arith_combined _ _ _ _ V1 V2 Ea) as [Ca Da].
  destruct (arith_combined _ _ _ _ V1 V3 Ec) as [Cc Dc]. destruct (arith_combined _ _ _ _ Va Vc Ez') as [Cz' Dz'].
  apply (combined_distr _ _ _ _ _ _ _ _ _ _ _ _ _ Cb Cz Ca Cc Cz'); [exact (distr_dtype _ _ _ _ _ _ _ _ Db Dz Da Dc Dz')|].
  intros ls v1 v2 v3 w v u t v' E1 T2 T3 F1 F2 F3 F4 F5. destruct (Hi ls v1 E1) as [HP HN].
  eapply (arith_elem_distr _ _ _ _ _ _ _ _ v1 v2 v3 w v u t v' Hb HP HN Db Dz Da Dc Dz'); try done. by eapply valid_cell_typed.
Qed.

(** * Subtraction *)
Lemma same_inner F F' y1 y2 z y1' y2' z' : combined F y1 y2 z -> combined F' y1' y2' z' -> llabel y1 = llabel y1' -> llabel y2 = llabel y2' -> llabel z = llabel z'.
Proof.
  intros C C' L1 L2. pose proof (combined_ndim _ _ _ _ C) as N. pose proof (combined_ndim _ _ _ _ C') as N'.
  assert (V : valid y1 /\ valid y1' /\ valid z /\ valid z') by (unfold combined in *; tauto). destruct V as (V1 & V1' & Vz & Vz').
  assert (E : lndim y1 = lndim y1') by (by rewrite <-(valid_ndim _ V1), <-(valid_ndim _ V1'), L1).
  apply list_eq_axes with (lndim y1); [rewrite valid_ndim by done; lia..|]. intros i r r' Hi Er Er'.
  destruct (combined_axis _ _ _ _ i C) as (l1 & l2 & l & E1 & E2 & E3 & I); [done|]. destruct (combined_axis _ _ _ _ i C') as (l1' & l2' & l' & E1' & E2' & E3' & I'); [lia|].
  rewrite L1 in E1. rewrite L2 in E2. simplify_eq. exact (inter_fun _ _ _ _ I I').
Qed.
Lemma num_of_Z_inj a b : num_of_Z a = num_of_Z b -> a = b.
Proof.
  intros H. destruct (Z.lt_trichotomy a b) as [Hl|[?|Hl]]; [|done|]; apply num_of_Z_lt in Hl; rewrite H in Hl; simpl in Hl; by destruct (Qclt_not_eq _ _ Hl).
Qed.
Lemma num_neg_int k : num_neg (num_of_Z k) = num_of_Z (- k).
Proof.
  unfold num_of_Z. cbn [num_neg]. f_equal. symmetry. apply Z2Qc_inj_opp.
Qed.
Lemma sub_is_add y1 y2 m z : valid y1 -> valid y2 -> ldtype y2 <> DBool -> larry_neg y2 = Ok m -> larry_arith ASub y1 (OpLarry y2) = Ok z -> larry_arith AAdd y1 (OpLarry m) = Ok z.
Proof.
  intros V1 V2 Hb Hm Hz. destruct (neg_spec _ _ V2 Hm) as (Vm & Lm & Dm & Am & Hc). destruct (arith_kinds _ _ _ _ V1 V2 Hz) as (A1 & A2 & _ & Vz & N & _).
  destruct (proj2 (arith_larry_iff AAdd y1 m V1 Vm)) as [z' Hz'].
  { rewrite Dm. split_and!; try done; [by rewrite <-(valid_ndim _ Vm), Lm, (valid_ndim _ V2)|]. pose proof (arith_meets _ _ _ _ V1 V2 Hz) as M. intros i l1 l2 E1 E2. rewrite Lm in E2. by apply (M i). }
  rewrite Hz'. f_equal. symmetry. destruct (arith_combined _ _ _ _ V1 V2 Hz) as [Cz Dz]. destruct (arith_combined _ _ _ _ V1 Vm Hz') as [Cz' Dz']. rewrite Dm in Dz'.
  assert (Hd : ldtype z = ldtype z') by (clear -Dz Dz'; destruct (ldtype y1), (ldtype y2); try done; simpl in Dz, Dz'; congruence).
  apply larry_ext; try done; [exact (arith_valid _ _ _ _ V1 Vm Hz')|by apply (same_inner _ _ _ _ _ _ _ _ Cz Cz')|].
  intros ls Hg. destruct (combined_cell _ _ _ _ ls Cz Hg) as (v1 & v2 & v & E1 & E2 & Ev & Fv). destruct (Hc ls v2 E2) as (w & Ew & Nw). destruct Cz' as (_ & _ & _ & _ & _ & Hz''). destruct (Hz'' ls v1 w E1 Ew) as [-> _].
  rewrite Ev, <-Fv, <-Hd. pose proof (valid_cell_typed _ _ _ V2 E2) as T2. pose proof (valid_cell_typed _ _ _ Vm Ew) as Tw. rewrite Dm in Tw.
  assert (Hv : (exists n, v2 = VFloat n /\ w = VFloat (num_neg n)) \/ (exists k, v2 = VInt k /\ w = VInt (- k))).
  { destruct A2 as [H|[H|H]]; rewrite H in T2, Tw; [| |done]; destruct v2; try done; destruct w; try done; destruct Nw as (n' & [= <-] & Hn).
    - left. eexists. split; [done|]. simpl in Hn. congruence.
    - right. eexists. split; [done|]. f_equal. apply num_of_Z_inj. apply (inj Some) in Hn. rewrite Hn. apply num_neg_int. }
  clear -Hv. destruct Hv as [(n & -> & ->)|(k & -> & ->)].
  - by destruct (ldtype z).
  - destruct (ldtype z); try done.
    cbn [arith_elem to_num mbind option_bind float_arith]. destruct (to_num v1) as [a|]; [|done]. cbn [mbind option_bind]. do 2 f_equal. unfold num_sub. by rewrite num_neg_int.
Qed.

(** * Scalars that change nothing *)
Lemma arith_scalar_same op u y : valid y -> arithmetic (ldtype y) -> ldtype y <> DBool -> scalar_dtype u = Some DInt -> arith_dtype op (ldtype y) DInt = Ok (ldtype y) ->
  (forall v, has_dtype (ldtype y) v = true -> arith_elem op (ldtype y) v u = Some v) -> larry_arith op y (OpScalar u) = Ok y.
Proof.
  intros Hv Ha Hb Hu Hdt He. unfold larry_arith, larry_binary, scalar_nda. rewrite Hu. cbn [of_opt mbind res_bind]. unfold np_arith. change (nd_dtype (lx y)) with (ldtype y). cbn [nd_dtype]. rewrite Hdt. cbn [mbind res_bind]. rewrite CommuteFacts.elementwise_scalar.
  assert (build (nd_shape (lx y)) (fun idx => w ← aget (nd_arr (lx y)) idx; arith_elem op (ldtype y) w u) = Some (larr y)) as ->.
  { apply build_Some. split; [done|]. split; [by apply valid_wf|]. intros idx Hi. change (nd_arr (lx y)) with (larr y). destruct (aget (larr y) idx) as [v|] eqn:E; [|done].
    cbn [mbind option_bind]. rewrite He; [done|]. pose proof (valid_typed y Hv) as Ht. rewrite Forall_forall in Ht. apply Ht. eapply elem_of_list_lookup_2. unfold aget in E. case_decide; [exact E|done]. }
  cbn [of_opt mbind res_bind]. by destruct y as [[dt a] l].
Qed.
Lemma scalar_units y : valid y -> ldtype y = DFloat \/ ldtype y = DInt ->
  larry_arith AAdd y (OpScalar (VInt 0)) = Ok y /\ larry_arith ASub y (OpScalar (VInt 0)) = Ok y /\ larry_arith AMul y (OpScalar (VInt 1)) = Ok y /\
  (ldtype y = DFloat -> larry_arith ADiv y (OpScalar (VInt 1)) = Ok y).
Proof.
  intros Hv Hd. assert (Ha : arithmetic (ldtype y)) by (unfold arithmetic; tauto). assert (Hb : ldtype y <> DBool) by (destruct Hd as [-> | ->]; done).
  assert (Z0 : num_of_Z 0 = Fin 0%Qc) by (unfold num_of_Z; f_equal; by apply Qc_is_canon). assert (Z1 : num_of_Z 1 = Fin 1%Qc) by (unfold num_of_Z; f_equal; by apply Qc_is_canon).
  split_and!; intros; apply arith_scalar_same; try done; try (destruct Hd as [-> | ->]; done); try (by rewrite H); intros v Hv'; destruct Hd as [E|E]; rewrite ?E in *; try done; destruct v as [n| | | | |]; try done.
  all: cbn [arith_elem to_num to_int mbind option_bind float_arith int_arith]; f_equal; f_equal; try lia.
  - rewrite Z0. destruct n; simpl; try done. f_equal. ring.
  - rewrite Z0. destruct n; simpl; try done. unfold num_sub. simpl. f_equal. ring.
  - rewrite Z1. destruct n; simpl; try done. f_equal. ring.
  - rewrite Z1. destruct n; simpl; try done. unfold Qcdiv. f_equal. change (/ 1)%Qc with 1%Qc. rewrite Qcmult_1_r. done.
Qed.
(** [y - y]. *)
Lemma sub_self y z ls v : valid y -> ldtype y = DFloat \/ ldtype y = DInt -> larry_arith ASub y (OpLarry y) = Ok z -> cell y ls = Some v ->
  llabel z = llabel y /\ ldtype z = ldtype y /\
  cell z ls = Some (match v with VFloat (Fin _) => VFloat (num_of_Z 0) | VFloat _ => VFloat NaN | _ => VInt 0 end).
Proof.
  intros Hv Hd Hz Hc. destruct (arith_combined _ _ _ _ Hv Hv Hz) as [Cz Dz]. split_and!.
  - pose proof (combined_ndim _ _ _ _ Cz) as N. apply list_eq_axes with (lndim y); [rewrite valid_ndim; [done|by eapply arith_valid; [| |exact Hz]]|by apply valid_ndim|].
    intros i r r' Hi E E'. destruct (combined_axis _ _ _ _ i Cz Hi) as (l1 & l2 & l & E1 & E2 & E3 & I). simplify_eq. by apply inter_same in I.
  - destruct Hd as [E|E]; rewrite E in Dz |- *; simpl in Dz; congruence.
  - destruct Cz as (_ & _ & _ & _ & _ & H). destruct (H ls v v Hc Hc) as [-> _]. assert (E : ldtype z = ldtype y) by (destruct Hd as [E|E]; rewrite E in Dz |- *; simpl in Dz; congruence).
    rewrite E. pose proof (valid_cell_typed _ _ _ Hv Hc) as T. destruct Hd as [D|D]; rewrite D in *; destruct v as [n|k| | | |]; try done; cbn [arith_elem to_num to_int mbind option_bind float_arith int_arith]; f_equal.
    + destruct n as [q| | |]; try done. unfold num_sub, num_of_Z. simpl. do 2 f_equal. assert (Qc_of_Z 0 = 0%Qc) as -> by (by apply Qc_is_canon). ring.
    + f_equal. lia.
Qed.
Lemma no_infinite_data y : valid y -> Forall (fun v => v <> VFloat PInf /\ v <> VFloat NInf) (data (larr y)) -> no_infinite y.
Proof.
  intros Hv H ls v (idx & _ & Hg)%cell_Some; [|by apply valid_nodup]. rewrite Forall_forall in H. apply H. apply elem_of_data; [by apply valid_wf|eauto].
Qed.
