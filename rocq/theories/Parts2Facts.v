(** C107: merging the parts that keep_label makes. *)
From Verif Require Import SpecFacts LabFacts AlignFacts PropsLarry PropsAlign.
From Verif Require Import PartsFacts.

Lemma part_cells_none (y y' : larry) ax (l k k' : list lab) ls x : llabel y !! ax = Some l -> valid y' -> llabel y' = <[ax := k']> (llabel y) -> ls !! ax = Some x -> x ∉ k' -> cell y' ls = None.
Proof.
  intros Hl Hv E Hx Hn. apply cell_None_grid; [done|]. rewrite E. intros Hg.
  destruct (in_grid_lookup _ _ ax k' Hg) as (x' & Ex' & Hx'). { apply list_lookup_insert. by eapply lookup_lt_Some. } congruence.
Qed.
Lemma part_no_inf (y y' : larry) ax (l k : list lab) : llabel y !! ax = Some l -> valid y' -> llabel y' = <[ax := k]> (llabel y) ->
  (forall ls x, ls !! ax = Some x -> x ∈ k -> cell y' ls = cell y ls) -> no_inf y -> no_inf y'.
Proof.
  intros Hl Hv E Hc Hi ls n Hn. assert (Hg : in_grid (llabel y') ls) by (apply valid_cell_grid; [done|]; by eexists).
  rewrite E in Hg. destruct (in_grid_lookup _ _ ax k Hg) as (x & Ex & Hx). { apply list_lookup_insert. by eapply lookup_lt_Some. }
  rewrite (Hc _ _ Ex Hx) in Hn. by apply (Hi ls).
Qed.
Lemma gains_at (y1 y2 : larry) ax (k1 k2 : list lab) x : llabel y1 !! ax = Some k1 -> llabel y2 !! ax = Some k2 -> x ∈ k2 -> x ∉ k1 -> gains y1 y2.
Proof.
  intros H1 H2 Hx Hn. unfold gains. apply Exists_exists. exists (k1, k2). split.
  - apply elem_of_list_lookup. exists ax. apply lookup_zip_with_Some. eauto 10.
  - apply Exists_exists. by exists x.
Qed.
Theorem merge_parts y op1 op2 a ax l y1 y2 update : valid y -> no_inf y -> axis_is y a ax -> llabel y !! ax = Some l -> complementary op1 op2 l ->
  keep_label y op1 (Some a) = Ok y1 -> keep_label y op2 (Some a) = Ok y2 -> all_comparable l ->
  exists z u, larry_merge y1 y2 update = Ok z /\ valid z /\ ldtype z = missing_dtype (ldtype y) /\
    llabel z = <[ax := u]> (llabel y) /\ u ≡ₚ l /\ StronglySorted lab_lt u /\
    forall ls, cell z ls = cast_to (ldtype z) <$> cell y ls.
Proof.
  intros Hv Hi Hax Hl Hc E1 E2 Hcmp. destruct (keep_parts y op1 op2 a ax l y1 y2) as (k1 & k2 & HP); try done.
  pose proof (parts_l1 _ _ _ _ _ _ _ HP) as L1. pose proof (parts_l2 _ _ _ _ _ _ _ HP) as L2. pose proof (parts_v1 _ _ _ _ _ _ _ HP) as V1. pose proof (parts_v2 _ _ _ _ _ _ _ HP) as V2.
  pose proof (parts_d1 _ _ _ _ _ _ _ HP) as D1. pose proof (parts_d2 _ _ _ _ _ _ _ HP) as D2. pose proof (parts_perm _ _ _ _ _ _ _ HP) as Hp.
  pose proof (parts_c1 _ _ _ _ _ _ _ HP) as C1. pose proof (parts_c2 _ _ _ _ _ _ _ HP) as C2.
  assert (Hlt : ax < length (llabel y)) by (by eapply lookup_lt_Some).
  assert (A1 : llabel y1 !! ax = Some k1) by (rewrite L1; by apply list_lookup_insert). assert (A2 : llabel y2 !! ax = Some k2) by (rewrite L2; by apply list_lookup_insert).
  assert (I1 : no_inf y1) by exact (part_no_inf y y1 ax l k1 Hl V1 L1 C1 Hi). assert (I2 : no_inf y2) by exact (part_no_inf y y2 ax l k2 Hl V2 L2 C2 Hi).
  assert (HN : NoDup l). { apply valid_nodup in Hv. by eapply Forall_lookup_1 in Hv. }
  assert (HD : forall x, x ∈ k1 -> x ∈ k2 -> False). { rewrite Hp in HN. apply NoDup_app in HN as (_ & HN & _). intros x ? ?. by apply (HN x). }
  assert (Hone : forall ls, ~ (is_Some (cell y1 ls) /\ is_Some (cell y2 ls))).
  { intros ls [S1 S2]. apply valid_cell_grid in S1; [|done]. apply valid_cell_grid in S2; [|done].
    destruct (in_grid_lookup _ _ _ _ S1 A1) as (x & Ex & Hx). destruct (in_grid_lookup _ _ _ _ S2 A2) as (x' & Ex' & Hx'). assert (x' = x) as -> by congruence. by apply (HD x). }
  assert (Hne1 : exists x, x ∈ k1). { pose proof (parts_ne1 _ _ _ _ _ _ _ HP). destruct k1 as [|x ?]; [done|]. exists x. by left. }
  assert (Hne2 : exists x, x ∈ k2). { pose proof (parts_ne2 _ _ _ _ _ _ _ HP). destruct k2 as [|x ?]; [done|]. exists x. by left. }
  destruct Hne1 as (x1 & X1), Hne2 as (x2 & X2).
  assert (J1 : joined_dtype y1 y2 = missing_dtype (ldtype y)).
  { unfold joined_dtype. rewrite decide_True; [by rewrite D1|]. eapply (gains_at y1 y2 ax k1 k2 x2); try done. intros ?. by apply (HD x2). }
  assert (J2 : joined_dtype y2 y1 = missing_dtype (ldtype y)).
  { unfold joined_dtype. rewrite decide_True; [by rewrite D2|]. eapply (gains_at y2 y1 ax k2 k1 x1); try done. intros ?. by apply (HD x1). }
  destruct (proj2 (C18_merge_succeeds y1 y2 update V1 V2)) as (z & Ez).
  { split; [by rewrite <-(valid_ndim y1), <-(valid_ndim y2), L1, L2, !insert_length by done|]. split.
    { intros i l1 l2 H1 H2. rewrite L1 in H1. rewrite L2 in H2. destruct (decide (i = ax)) as [->|Hne].
      - rewrite list_lookup_insert in H1, H2 by done. simplify_eq. right. intros u w Hu Hw. apply Hcmp; by rewrite Hp.
      - rewrite list_lookup_insert_ne in H1, H2 by done. left. congruence. }
    split; [left; congruence|]. split.
    - right. intros ls [S1 S2]. apply (Hone ls). unfold solid_at, data_at in S1, S2. destruct (cell y1 ls), (cell y2 ls); try done; by destruct S1, S2.
    - right. rewrite J1, J2. by left. }
  destruct (C18_merge_any _ _ _ _ V1 V2 Ez) as (_ & _ & _ & Dz & _). destruct (C18_merge _ _ _ _ V1 V2 I1 I2 Ez) as (_ & Vz & (Lz & Mz) & _ & Cz & _).
  rewrite L1, insert_length in Lz. destruct (lookup_lt_is_Some_2 (llabel z) ax) as (u & Hu); [lia|].
  pose proof (Mz ax k1 k2 u A1 A2 Hu) as Hunion. unfold union_label in Hunion. rewrite decide_False in Hunion by (intros ->; by apply (HD x2)). destruct Hunion as [HS HM].
  assert (Hup : u ≡ₚ l). { apply NoDup_Permutation; [by apply lt_sorted_nodup|done|]. intros x. by rewrite Hp, elem_of_app. }
  assert (Lab : llabel z = <[ax := u]> (llabel y)).
  { apply list_eq. intros i. destruct (decide (i = ax)) as [->|Hne]; [by rewrite list_lookup_insert|]. rewrite list_lookup_insert_ne by done.
    destruct (llabel y !! i) as [li|] eqn:Ei.
    - destruct (lookup_lt_is_Some_2 (llabel z) i) as (w & Hw). { apply lookup_lt_Some in Ei. lia. }
      rewrite Hw. f_equal. assert (B1 : llabel y1 !! i = Some li) by (rewrite L1; by rewrite list_lookup_insert_ne). assert (B2 : llabel y2 !! i = Some li) by (rewrite L2; by rewrite list_lookup_insert_ne).
      pose proof (Mz i li li w B1 B2 Hw) as K. unfold union_label in K. by rewrite decide_True in K.
    - apply lookup_ge_None in Ei. apply lookup_ge_None. lia. }
  exists z, u. split_and!; try done; [congruence|]. intros ls.
  destruct (decide (in_grid (llabel z) ls)) as [Hg|Hg].
  - rewrite (Cz _ Hg). rewrite Lab in Hg. apply (insert_grid _ _ l) in Hg as [Hg (x & Ex & Hx)]; [|done|intros ?; by rewrite Hup].
    destruct (proj2 (valid_cell_grid y ls Hv) Hg) as (v & Ev). pose proof (valid_cell_typed _ _ _ Hv Ev) as Ty.
    assert (HV : forall y', ldtype y' = ldtype y -> cell y' ls = Some v -> data_at y' ls = if decide (marker (ldtype y) = Some v) then None else Some v). { intros y' Dy Ec. unfold data_at. by rewrite Ec, Dy. }
    assert (HM' : marker (ldtype y) = Some v -> missing_mark (ldtype z) = cast_to (ldtype z) v). { rewrite Dz, J1. destruct (ldtype y); simpl; by intros [= <-]. }
    assert (HZ : forall y', cell y' ls = None -> data_at y' ls = None). { intros y' Ec. unfold data_at. by rewrite Ec. }
    rewrite Ev. simpl. f_equal. apply HM in Hx as [Hx|Hx].
    + rewrite (HZ y2), (HV y1 D1); [|by rewrite (C1 _ _ Ex Hx)|]. { case_decide; auto. }
      eapply (part_cells_none y y2 ax l k2 k2); [done..|]. intros ?. by apply (HD x).
    + rewrite (HZ y1), (HV y2 D2); [|by rewrite (C2 _ _ Ex Hx)|]. { case_decide; auto. }
      eapply (part_cells_none y y1 ax l k1 k1); [done..|]. intros ?. by apply (HD x).
  - assert (~ in_grid (llabel y) ls) as Hg'.
    { intros Hg'. apply Hg. rewrite Lab. apply (insert_grid _ _ l); [done|intros ?; by rewrite Hup|]. split; [done|]. destruct (in_grid_lookup _ _ _ _ Hg' Hl) as (x & Ex & Hx). exists x. by rewrite Hup. }
    rewrite (proj2 (cell_None_grid z ls Vz)) by done. by rewrite (proj2 (cell_None_grid y ls Hv)).
Qed.
