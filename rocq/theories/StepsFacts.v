(** Two calls that do the same as one. *)
From Verif Require Import BaseFacts LarryFacts SpecFacts NumFacts AlignFacts RankLarry PropsLarry PropsAlign PropsNumeric.

Local Ltac dif := match goal with |- context [if ?d then _ else _] => by destruct d end.

(** * morph *)
Lemma realigned_unique y z w : realigned y z -> realigned y w -> llabel z = llabel w -> ldtype z = ldtype w -> z = w.
Proof.
  intros (Hz & _ & _ & Cz) (Hw & _ & _ & Cw) Hl Hd. apply larry_ext; [done..|]. intros ls Hg. rewrite Cz by done. rewrite Hl in Hg. rewrite Cw by done. by rewrite Hd.
Qed.
Lemma axis_is_lab y z a ax : length (llabel z) = length (llabel y) -> axis_is y a ax -> axis_is z a ax.
Proof. intros Hl [H1 H2]. unfold axis_is. by rewrite Hl. Qed.
Lemma axis_unique y a ax ax' : axis_is y a ax -> axis_is y a ax' -> ax = ax'.
Proof. intros [H1 H2] [H3 H4]. lia. Qed.
Theorem morph_morph y l1 l2 a old z1 z2 : valid y -> missing_dtype (ldtype y) = ldtype y -> axis_label_is y a old ->
  (forall l, l ∈ l2 -> l ∈ old -> l ∈ l1) -> morph y l1 a = Ok z1 -> morph z1 l2 a = Ok z2 -> morph y l2 a = Ok z2.
Proof.
  intros Hv Hm (ax & Hax & Hold) Hsub H1 H2.
  destruct (C16_morph _ _ _ _ Hv H1) as (ax1 & old1 & Hax1 & Hold1 & Hn1 & Hl1 & Hr1 & Hd1).
  rewrite <-(axis_unique _ _ _ _ Hax Hax1) in *. rewrite Hold in Hold1. apply (inj Some) in Hold1. subst old1. clear Hax1.
  assert (Hv1 : valid z1) by apply Hr1.
  destruct (C16_morph _ _ _ _ Hv1 H2) as (ax2 & old2 & Hax2 & Hold2 & Hn2 & Hl2 & Hr2 & Hd2).
  assert (axis_is z1 a ax) as Hax1 by (apply (axis_is_lab y); [rewrite Hl1; apply insert_length|done]).
  rewrite <-(axis_unique _ _ _ _ Hax1 Hax2) in *. clear Hax2 Hold2.
  assert (D1 : ldtype z1 = ldtype y) by (rewrite Hd1; dif).
  assert (D2 : ldtype z2 = ldtype y) by (rewrite Hd2, D1; dif).
  destruct (proj2 (C16_morph_succeeds y l2 a Hv)) as [w Hw]; [eauto|]. rewrite Hw. f_equal.
  destruct (C16_morph _ _ _ _ Hv Hw) as (ax3 & old3 & Hax3 & Hold3 & _ & Hl3 & Hr3 & Hd3). rewrite <-(axis_unique _ _ _ _ Hax Hax3) in *.
  assert (D3 : ldtype w = ldtype y) by (rewrite Hd3; dif).
  assert (HL : llabel w = llabel z2). { rewrite Hl3, Hl2, Hl1. by rewrite list_insert_insert. }
  apply (realigned_unique y); [done| |done|congruence]. apply (realigned_trans y z1 z2); [done..|].
  intros ls Hy Hg. rewrite Hl1. rewrite <-HL, Hl3 in Hg. apply in_grid_alt. destruct (proj1 (in_grid_alt _ _) Hy) as [Hlen Hy']. split; [by rewrite insert_length|].
  intros ax' l axis Hl Haxis. destruct (decide (ax' = ax)) as [->|Hne].
  - rewrite list_lookup_insert in Haxis by (by eapply lookup_lt_Some). apply (inj Some) in Haxis. subst axis. apply Hsub; [by eapply (in_grid_insert (llabel y) ax)|by eapply Hy'].
  - rewrite list_lookup_insert_ne in Haxis by done. by eapply Hy'.
Qed.
Theorem morph_back y l a old z : valid y -> missing_dtype (ldtype y) = ldtype y -> axis_label_is y a old -> (forall x, x ∈ old -> x ∈ l) ->
  morph y l a = Ok z -> morph z old a = Ok y.
Proof.
  intros Hv Hm Hold Hsub Hz. assert (exists ax, axis_is y a ax) as [ax Hax] by (destruct Hold as (ax & ? & _); eauto).
  assert (Hvz : valid z /\ length (llabel z) = length (llabel y)).
  { destruct (C16_morph _ _ _ _ Hv Hz) as (? & ? & ? & ? & ? & Hl & [? _] & ?). split; [done|]. by rewrite Hl, insert_length. }
  assert (NoDup old) as Hnd. { destruct Hold as (ax' & _ & Hl). pose proof (valid_nodup y Hv) as Hn. rewrite Forall_lookup in Hn. eauto. }
  destruct (proj2 (C16_morph_succeeds z old a (proj1 Hvz))) as [w Hw].
  { split; [|done]. exists ax. apply (axis_is_lab y); [apply Hvz|done]. }
  pose proof (morph_morph y l old a old z w Hv Hm Hold ltac:(auto) Hz Hw) as H. rewrite Hw.
  assert (morph y old a = Ok y) as E; [|congruence].
  destruct Hold as (ax' & Hax' & Hl). unfold morph. pose proof (valid_ndim y Hv). rewrite decide_False by (destruct Hax'; lia).
  rewrite (proj2 (py_axis_is y a ax') Hax'). cbn [mbind res_bind]. unfold axis_label. rewrite Hl. cbn [of_opt mbind res_bind]. by rewrite decide_True.
Qed.

(** * take *)
Theorem larry_take_take y is1 is2 is a z1 z2 : valid y -> larry_take y is1 a = Ok z1 -> larry_take z1 is2 a = Ok z2 ->
  mapM (py_get is1) is2 = Some is -> larry_take y is a = Ok z2.
Proof.
  intros Hv H1 H2 His.
  destruct (C11_take _ _ _ _ Hv H1) as (ax & l & lab1 & Hax & Hl & Hm1 & Hv1 & Hd1 & Hl1 & Hc1).
  destruct (C11_take _ _ _ _ Hv1 H2) as (ax2 & l2 & lab2 & Hax2 & Hl2 & Hm2 & Hv2 & Hd2 & Hll2 & Hc2).
  assert (axis_is z1 a ax) as Hax1 by (apply (axis_is_lab y); [rewrite Hl1; apply insert_length|done]).
  rewrite <-(axis_unique _ _ _ _ Hax1 Hax2) in *. clear Hax2.
  assert (l2 = lab1) as ->.
  { rewrite Hl1, list_lookup_insert in Hl2 by (by eapply lookup_lt_Some). congruence. }
  assert (Hg : forall i j x, py_get is1 i = Some j -> py_get lab1 i = Some x -> py_get l j = Some x).
  { intros i j x Hi Hx. unfold py_get in Hi, Hx. apply mapM_Some_1 in Hm1. assert (length is1 = length lab1) as Hlen by (by eapply Forall2_length).
    rewrite <-Hlen in Hx. destruct (py_index (length is1) i) as [k|]; [|done]. cbn in Hi, Hx. by apply (Forall2_lookup_lr _ _ _ k j x Hm1). }
  assert (Hm : mapM (py_get l) is = Some lab2).
  { apply mapM_Some. apply mapM_Some_1 in His, Hm2. apply Forall2_same_length_lookup_2.
    - rewrite <-(Forall2_length _ _ _ His). by eapply Forall2_length.
    - intros k j x Hj Hx. destruct (Forall2_lookup_r _ _ _ k j His Hj) as (i & Hi & Hij). apply (Hg i j x Hij). by apply (Forall2_lookup_lr _ _ _ k i x Hm2). }
  assert (Hnd : NoDup lab2).
  { pose proof (valid_nodup z2 Hv2) as Hn. rewrite Forall_lookup in Hn. apply (Hn ax). rewrite Hll2. apply list_lookup_insert. rewrite Hl1, insert_length. by eapply lookup_lt_Some. }
  assert (exists w, larry_take y is a = Ok w) as [w Hw].
  { apply mapM_Some_1 in Hm. apply (C11_take_total y is a ax l); [done..| |].
    - intros j Hj. apply elem_of_list_lookup in Hj as [k Hk]. destruct (Forall2_lookup_l _ _ _ k j Hm Hk) as (x & _ & Hx). unfold py_get in Hx.
      destruct (py_index (length l) j) as [p|] eqn:Ep; [|done]. apply py_index_Some in Ep. lia.
    - apply NoDup_alt. intros k1 k2 q Hk1 Hk2. rewrite list_lookup_fmap, fmap_Some in Hk1, Hk2. destruct Hk1 as (j1 & Hj1 & E1), Hk2 as (j2 & Hj2 & E2).
      destruct (Forall2_lookup_l _ _ _ k1 j1 Hm Hj1) as (x1 & Hx1 & Hp1). destruct (Forall2_lookup_l _ _ _ k2 j2 Hm Hj2) as (x2 & Hx2 & Hp2).
      unfold py_get in Hp1, Hp2. destruct (py_index (length l) j1) as [p1|] eqn:Ep1; [|done]. destruct (py_index (length l) j2) as [p2|] eqn:Ep2; [|done].
      apply py_index_mod in Ep1, Ep2. assert (p1 = p2) as -> by lia. cbn in Hp1, Hp2. assert (x1 = x2) as -> by congruence. by eapply NoDup_lookup. }
  rewrite Hw. f_equal. destruct (C11_take _ _ _ _ Hv Hw) as (ax' & l' & lab' & Hax' & Hl' & Hm' & Hvw & Hdw & Hlw & Hcw).
  rewrite <-(axis_unique _ _ _ _ Hax Hax') in *. assert (l' = l) as -> by congruence. assert (lab' = lab2) as -> by congruence.
  assert (E : llabel w = llabel z2) by (rewrite Hlw, Hll2, Hl1; by rewrite list_insert_insert).
  apply larry_ext; [done|done|congruence|done|]. intros ls Hg'. rewrite E in Hg'. apply valid_cell_grid in Hg' as [v Hcv]; [|done]. rewrite Hcv.
  apply Hcw. apply Hc2 in Hcv as [Hcv Hi]. apply Hc1 in Hcv as [Hcv _]. done.
Qed.

(** * keep_label *)
Lemma elem_of_sub (k l : list lab) x : k `sublist_of` l -> x ∈ k -> x ∈ l.
Proof. induction 1 as [|y k l H IH|y k l H IH]; [done|rewrite !elem_of_cons; naive_solver|rewrite elem_of_cons; naive_solver]. Qed.
Lemma sub_unique (l k1 k2 : list lab) : NoDup l -> k1 `sublist_of` l -> k2 `sublist_of` l -> (forall x, x ∈ k1 <-> x ∈ k2) -> k1 = k2.
Proof.
  revert k1 k2. induction l as [|x l IH]; intros k1 k2 Hn H1 H2 He.
  { apply sublist_nil_r in H1, H2. by subst. }
  apply NoDup_cons in Hn as [Hx Hn]. inversion H1; inversion H2; subst.
  - f_equal. apply IH; [done..|]. intros y. specialize (He y). rewrite !elem_of_cons in He. split; intros Hy.
    + destruct (proj1 He (or_intror Hy)) as [->|]; [|done]. destruct Hx. eapply elem_of_sub; [|exact Hy]; done.
    + destruct (proj2 He (or_intror Hy)) as [->|]; [|done]. destruct Hx. eapply elem_of_sub; [|exact Hy]; done.
  - destruct Hx. eapply (elem_of_sub k2); [done|]. apply He. left.
  - destruct Hx. eapply (elem_of_sub k1); [done|]. apply He. left.
  - by apply IH.
Qed.
Lemma sub_trans (k2 k1 l : list lab) : k2 `sublist_of` k1 -> k1 `sublist_of` l -> k2 `sublist_of` l.
Proof. intros. by etrans. Qed.
Lemma op_defined_of y op a z ax l : valid y -> keep_label y op (Some a) = Ok z -> axis_is y a ax -> llabel y !! ax = Some l -> forall x, x ∈ l -> op_defined op x.
Proof.
  intros Hv Hz Hax Hl. destruct (proj1 (C14_keep_label_total y op a Hv) (ex_intro _ z Hz)) as (ax' & l' & Hax' & Hl' & H).
  rewrite (axis_unique _ _ _ _ Hax Hax') in Hl. rewrite Hl in Hl'. apply (inj Some) in Hl'. by subst.
Qed.
Lemma empty_no_axis op a w : keep_label empty_larry op (Some a) = Ok w -> w = empty_larry.
Proof.
  intros H. assert (valid empty_larry) as Hv by (unfold empty_larry; solve_valid). destruct (C14_keep_label _ _ _ _ Hv H) as (ax & l & Hax & Hl & kept & Hs & _ & _ & He).
  apply He. destruct ax as [|ax]; [|by destruct ax]. cbn in Hl. apply (inj Some) in Hl. subst l. by apply sublist_nil_r.
Qed.
(** One condition after another, in either order. *)
Theorem keep_keep y op1 op2 a z1 z2 z : valid y -> keep_label y op1 (Some a) = Ok z1 -> keep_label y op2 (Some a) = Ok z2 ->
  keep_label z1 op2 (Some a) = Ok z -> z <> empty_larry -> keep_label z2 op1 (Some a) = Ok z.
Proof.
  intros Hv H1 H2 H12 Hne.
  destruct (C14_keep_label _ _ _ _ Hv H1) as (ax & l & Hax & Hl & k1 & Hs1 & Hk1 & Hf1 & He1).
  destruct (decide (k1 = [])) as [E|Hk1n]; [specialize (He1 E); change (z1 = empty_larry) in He1; subst z1; destruct Hne; by eapply empty_no_axis|].
  destruct (Hf1 Hk1n) as (Hv1 & Hd1 & Hl1 & Hc1). clear Hf1 He1.
  assert (Hlt : ax < length (llabel y)) by apply Hax.
  assert (axis_is z1 a ax) as Hax1 by (apply (axis_is_lab y); [rewrite Hl1; apply insert_length|done]).
  destruct (C14_keep_label _ _ _ _ Hv1 H12) as (ax' & l' & Hax' & Hl' & k & Hs & Hk & Hf & He). rewrite <-(axis_unique _ _ _ _ Hax1 Hax') in *. clear Hax' ax'.
  rewrite Hl1, list_lookup_insert in Hl' by done. apply (inj Some) in Hl'. subst l'.
  destruct (decide (k = [])) as [E|Hkn]; [destruct Hne; by apply He|]. destruct (Hf Hkn) as (Hvz & Hdz & Hlz & Hcz). clear Hf He.
  destruct (C14_keep_label _ _ _ _ Hv H2) as (ax' & l' & Hax' & Hl' & k2 & Hs2 & Hk2 & Hf2 & _). rewrite <-(axis_unique _ _ _ _ Hax Hax') in *. clear Hax' ax'.
  rewrite Hl in Hl'. apply (inj Some) in Hl'. subst l'.
  assert (Hk2n : k2 <> []).
  { destruct k as [|x k]; [done|]. assert (x ∈ k2) as Hx; [|intros ->; by apply elem_of_nil in Hx]. apply Hk2. assert (x ∈ x :: k) as Hx by left. apply Hk in Hx as [Hx ?]. split; [|done]. by apply Hk1 in Hx as [? _]. }
  destruct (Hf2 Hk2n) as (Hv2 & Hd2 & Hl2 & Hc2). clear Hf2.
  assert (axis_is z2 a ax) as Hax2 by (apply (axis_is_lab y); [rewrite Hl2; apply insert_length|done]).
  assert (Hlz2 : llabel z2 !! ax = Some k2) by (rewrite Hl2; by apply list_lookup_insert).
  destruct (proj2 (C14_keep_label_total z2 op1 a Hv2)) as [w Hw].
  { exists ax, k2. split_and!; [done..|]. intros x Hx. eapply (op_defined_of y op1 a z1); [done..|]. by apply Hk2 in Hx as [? _]. }
  rewrite Hw. f_equal. destruct (C14_keep_label _ _ _ _ Hv2 Hw) as (ax' & l' & Hax' & Hl' & k' & Hs' & Hk' & Hf' & _). rewrite <-(axis_unique _ _ _ _ Hax2 Hax') in *. clear Hax' ax'.
  rewrite Hlz2 in Hl'. apply (inj Some) in Hl'. subst l'.
  assert (k' = k) as ->.
  { apply (sub_unique l).
    - pose proof (valid_nodup y Hv) as Hn. rewrite Forall_lookup in Hn. eauto.
    - by eapply sub_trans.
    - by eapply sub_trans.
    - intros x. rewrite Hk', Hk2, Hk, Hk1. tauto. }
  destruct (Hf' Hkn) as (Hvw & Hdw & Hlw & Hcw).
  assert (E : llabel w = llabel z) by (rewrite Hlw, Hlz, Hl1, Hl2; by rewrite !list_insert_insert).
  apply larry_ext; [done|done|congruence|done|]. intros ls Hg. rewrite E in Hg. apply valid_cell_grid in Hg as [v Hcv]; [|done]. rewrite Hcv.
  apply Hcw. rewrite Hc2. apply Hcz in Hcv as [Hcv (b & Hb & Hob)]. apply Hc1 in Hcv as [Hcv (b' & Hb' & Hob')]. rewrite Hb in Hb'. apply (inj Some) in Hb'. subst b'. eauto 10.
Qed.
Theorem keep_again y op a z : valid y -> keep_label y op (Some a) = Ok z -> z <> empty_larry -> keep_label z op (Some a) = Ok z.
Proof.
  intros Hv H1 Hne. destruct (C14_keep_label _ _ _ _ Hv H1) as (ax & l & Hax & Hl & k1 & Hs1 & Hk1 & Hf1 & He1).
  destruct (decide (k1 = [])) as [E|Hk1n]; [destruct Hne; by apply He1|].
  destruct (Hf1 Hk1n) as (Hv1 & Hd1 & Hl1 & Hc1). clear Hf1 He1. assert (Hlt : ax < length (llabel y)) by apply Hax.
  assert (axis_is z a ax) as Hax1 by (apply (axis_is_lab y); [rewrite Hl1; apply insert_length|done]).
  assert (Hlz : llabel z !! ax = Some k1) by (rewrite Hl1; by apply list_lookup_insert).
  destruct (proj2 (C14_keep_label_total z op a Hv1)) as [w Hw].
  { exists ax, k1. split_and!; [done..|]. intros x Hx. eapply (op_defined_of y op a z); [done..|]. by apply Hk1 in Hx as [? _]. }
  rewrite Hw. f_equal. destruct (C14_keep_label _ _ _ _ Hv1 Hw) as (ax' & l' & Hax' & Hl' & k & Hs & Hk & Hf & _). rewrite <-(axis_unique _ _ _ _ Hax1 Hax') in *. clear Hax' ax'.
  rewrite Hlz in Hl'. apply (inj Some) in Hl'. subst l'.
  assert (k = k1) as ->.
  { apply (sub_unique k1); [|done|done|].
    - pose proof (valid_nodup z Hv1) as Hn. rewrite Forall_lookup in Hn. eauto.
    - intros x. rewrite Hk, Hk1. tauto. }
  destruct (Hf Hk1n) as (Hvw & Hdw & Hlw & Hcw). rewrite list_insert_id in Hlw by done.
  apply larry_ext; [done|done|congruence|done|]. intros ls Hg. rewrite Hlw in Hg. apply valid_cell_grid in Hg as [v Hcv]; [|done]. rewrite Hcv. apply Hcw. split; [done|]. by apply Hc1 in Hcv as [_ ?].
Qed.
