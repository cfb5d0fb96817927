(** The theorems about parts of larrys. *)
From Verif Require Export CommuteReduce.

Lemma lrel_part ps a0 l l' z z' : valid z -> lrel ps a0 l l' z z' -> NoDup l' -> Forall2 (fun p x => l !! p = Some x) ps l' -> part_of z a0 l' z'.
Proof.
  intros Hv (Hp & Hl & Hlab) Hnd Hps. apply (lpicks_part ps a0 l l'). destruct z as [x lx], z' as [x' lx']. by apply lift_label.
Qed.
Lemma cells_part f y a0 l' y' z : cell_method f -> valid y -> part_of y a0 l' y' -> f y = Ok z ->
  exists z', f y' = Ok z' /\ part_of z a0 l' z'.
Proof.
  intros Hf Hv Hp Hz. destruct (part_lpicks _ _ _ _ Hv Hp) as (ps & l & Hlp & _).
  destruct (cell_commutes f Hf ps a0 y y' Hv (lp_v' _ _ _ _ _ _ Hlp) (Hnp _ _ _ _ _ _ Hlp) z Hz) as (z' & Hz' & (x & x' & -> & -> & Hx)).
  eexists. split; [done|]. eapply lpicks_part. eapply lift; [done| |done]. by eapply cell_valid.
Qed.
Lemma part_nonempty ps l' (P : nat -> lab -> Prop) : Forall2 P ps l' -> l' <> [] -> ps <> [].
Proof. intros H Hne ->. by apply Forall2_nil_inv_l in H. Qed.
Lemma lanes_part f y axis ax a0 l' y' z : lane_method f -> valid y -> axis_is y axis ax -> ax <> a0 -> l' <> [] -> part_of y a0 l' y' ->
  f y axis = Ok z -> exists z', f y' axis = Ok z' /\ part_of z a0 l' z'.
Proof.
  intros Hf Hv Hax Hne Hl' Hp Hz. destruct (part_lpicks _ _ _ _ Hv Hp) as (ps & l & Hlp & _).
  pose proof Hlp as (_ & _ & _ & _ & _ & Hps).
  destruct (lane_method_commutes f Hf ps a0 l l' y y' axis ax Hlp (part_nonempty _ _ _ Hps Hl') Hax Hne z Hz) as (z' & Hz' & Hr).
  exists z'. split; [done|]. eapply lrel_part; [by eapply lane_valid|done|by eapply lpicks_nodup|done].
Qed.
Lemma reductions_part f y axis ax a0 l' y' r : reduce_method f -> valid y -> axis_is y axis ax -> ax <> a0 -> l' <> [] -> part_of y a0 l' y' ->
  f y axis = Ok r -> exists z z', r = OLar z /\ f y' axis = Ok (OLar z') /\ part_of z (axis_left ax a0) l' z'.
Proof.
  intros Hf Hv Hax Hne Hl' Hp Hz. destruct (part_lpicks _ _ _ _ Hv Hp) as (ps & l & Hlp & _).
  pose proof Hlp as (_ & _ & _ & _ & _ & Hps).
  destruct (reduce_method_commutes f Hf ps a0 l l' y y' axis ax Hlp (part_nonempty _ _ _ Hps Hl') Hax Hne r Hz) as (r' & Hr' & (z & z' & -> & -> & Hr)).
  exists z, z'. split; [done|]. split; [done|]. eapply lrel_part; [by eapply reduce_method_valid|done|by eapply lpicks_nodup|done].
Qed.
Lemma part_unique y a0 l' z1 z2 : part_of y a0 l' z1 -> part_of y a0 l' z2 -> z1 = z2.
Proof.
  intros (Hv1 & Hd1 & _ & Hl1 & Hc1) (Hv2 & Hd2 & _ & Hl2 & Hc2). apply larry_ext; [done|done|congruence|congruence|].
  intros ls Hg. rewrite Hc1 by done. symmetry. apply Hc2. by rewrite Hl2, <-Hl1.
Qed.

(** What selects parts. *)
Lemma cells_part_of y ax l lab y' : valid y -> valid y' -> llabel y !! ax = Some l -> (forall x, x ∈ lab -> x ∈ l) -> ldtype y' = ldtype y ->
  llabel y' = <[ax := lab]> (llabel y) ->
  (forall ls v, cell y' ls = Some v -> cell y ls = Some v) -> part_of y ax lab y'.
Proof.
  intros Hv Hv' Hl Hsub Hd Hlab Hc. split_and!; [done|done|by exists l|done|]. intros ls Hg.
  apply in_grid_labels_at in Hg as [idx Hg]. destruct (valid_cell_at y' idx ls Hv' Hg) as (v & _ & Hcv). rewrite Hcv. symmetry. by apply Hc.
Qed.
Lemma take_part y ids axis y' : valid y -> larry_take y ids axis = Ok y' ->
  exists ax l', axis_is y axis ax /\ part_of y ax l' y' /\ length l' = length ids.
Proof.
  intros Hv H. destruct (larry_take_spec y ids axis y' Hv H) as (ax & l & lab' & Hax & Hl & Hm & Hv' & Hd & Hlab & Hc).
  exists ax, lab'. split; [by apply py_axis_is|]. apply mapM_Some in Hm. split; [|symmetry; by eapply Forall2_length].
  eapply cells_part_of; [done|done|done| |done|done|].
  - intros x Hx. apply elem_of_list_lookup in Hx as [k Hk]. destruct (Forall2_lookup_r _ _ _ _ _ Hm Hk) as (i & _ & Hi).
    unfold py_get in Hi. destruct (py_index _ _) as [p|]; simpl in Hi; [|done]. by eapply elem_of_list_lookup_2.
  - intros ls v Hls. by apply Hc in Hls as [? _].
Qed.
Lemma keep_label_part y op axis y' : valid y -> keep_label y op (Some axis) = Ok y' ->
  (exists ax l, axis_is y axis ax /\ llabel y !! ax = Some l /\ exists x, x ∈ l /\ op_holds op x) ->
  exists ax l', axis_is y axis ax /\ part_of y ax l' y' /\ l' <> [].
Proof.
  intros Hv H (ax0 & l0 & Hax0 & Hl0 & x0 & Hx0 & Hop0). destruct (keep_label_spec y op axis y' Hv H) as (ax & l & Hax & Hl & kept & _ & Hk & Hne & _).
  assert (ax0 = ax) as ->. { apply py_axis_is in Hax0. congruence. }
  assert (kept <> []) as Hkn. { assert (x0 ∈ kept) as Hin by (apply Hk; split; [congruence|done]). intros ->. by apply elem_of_nil in Hin. }
  destruct (Hne Hkn) as (Hv' & Hd & Hlab & Hc). exists ax, kept. split; [done|]. split; [|done].
  eapply cells_part_of; [done|done|done| |done|done|]; [intros x Hx; by apply Hk in Hx as [? _]|]. intros ls v Hls. by apply Hc in Hls as [? _].
Qed.
Lemma morph_part y label axis ax l z : valid y -> axis_is y axis ax -> llabel y !! ax = Some l -> label <> [] -> (forall x, x ∈ label -> x ∈ l) ->
  morph y label axis = Ok z -> part_of y ax label z.
Proof.
  intros Hv Hax Hl Hne Hsub H. destruct (morph_spec y label axis z Hv H) as (ax' & old & Hax' & Hl' & Hnd & Hlab & Hr & Hd).
  assert (ax' = ax) as ->. { apply py_axis_is in Hax. congruence. }
  assert (old = l) as -> by congruence. unfold morph_dtype in Hd. rewrite decide_True in Hd by (right; split; [done|by apply Forall_forall]).
  assert (Hvz : valid z) by (by eapply morph_valid). split_and!; [done|done|by exists l|done|].
  intros ls Hg. assert (in_grid (llabel y) ls) as Hg' by (rewrite Hlab in Hg; by eapply grid_insert).
  destruct Hr as (_ & _ & _ & Hr). rewrite (Hr ls Hg). apply in_grid_labels_at in Hg' as [idx Hi].
  destruct (valid_cell_at y idx ls Hv Hi) as (v & Hgv & Hcv). rewrite Hcv. f_equal. rewrite Hd. apply cast_to_typed. by eapply valid_cell_typed.
Qed.
Lemma flip_part y axis ax l y' : valid y -> axis_is y axis ax -> llabel y !! ax = Some l -> flipaxis y (Some axis) = Ok y' ->
  part_of y ax (reverse l) y'.
Proof.
  intros Hv Hax Hl H. destruct (flipaxis_some y axis ax l Hv) as (z & Hz & Hvz & Hd & Hlab & Hc); [by apply py_axis_is|done|].
  assert (y' = z) as -> by congruence. split_and!; [done|done| |done|done]. exists l. split; [done|]. intros x. by rewrite elem_of_reverse.
Qed.
Lemma sort_part y axis ax rev l y' : valid y -> axis_is y axis ax -> llabel y !! ax = Some l -> sortaxis y (Some axis) rev = Ok y' ->
  exists l', part_of y ax l' y' /\ l' ≡ₚ l.
Proof.
  intros Hv Hax Hl H. destruct (sortaxis_full y (Some axis) rev y' Hv H) as (Hvz & Hd & Hlen & Hc & Hlab).
  destruct (lookup_lt_is_Some_2 (llabel y') ax) as [l' Hl']; [rewrite Hlen; apply Hax|]. destruct (Hlab ax l l' Hl Hl') as (Hp & _).
  exists l'. split; [|done]. split_and!; [done|done|exists l; split; [done|]; intros x; by rewrite Hp| |done].
  apply list_ext_len; [by rewrite insert_length|]. intros i Hi. destruct (decide (i = ax)) as [->|Hia].
  - rewrite list_lookup_insert by (by eapply lookup_lt_Some). done.
  - rewrite list_lookup_insert_ne by done. destruct (lookup_lt_is_Some_2 (llabel y') i Hi) as [k Hk].
    destruct (lookup_lt_is_Some_2 (llabel y) i) as [k' Hk']; [by rewrite <-Hlen|]. destruct (Hlab i k' k Hk' Hk) as (_ & _ & He).
    rewrite Hk, Hk'. f_equal. apply He. simpl. intros Hai. apply py_axis_is in Hax, Hai. congruence.
Qed.

(** Taking commutes. *)
Lemma take_again y z ids axis axis' a0 b0 l' y' z' : valid y -> valid z -> larry_take y ids axis = Ok y' -> axis_is y axis a0 -> axis_is z axis' b0 ->
  llabel z !! b0 = llabel y !! a0 -> part_of y a0 l' y' -> part_of z b0 l' z' -> larry_take z ids axis' = Ok z'.
Proof.
  intros Hv Hvz H Ha Hb Hl Hpy Hpz. apply py_axis_is in Ha, Hb.
  destruct (larry_take_spec y ids axis y' Hv H) as (ax & l & lab' & Hax & Hlx & Hm & Hv' & Hd & Hlab & Hc).
  assert (ax = a0) as -> by congruence. assert (El : lab' = l').
  { destruct Hpy as (_ & _ & _ & E & _). rewrite Hlab in E. apply (f_equal (.!! a0)) in E. apply lookup_lt_Some in Hlx. rewrite !list_lookup_insert in E by done. congruence. }
  subst lab'. rewrite Hlx in Hl.
  assert (exists w, larry_take z ids axis' = Ok w) as [w Hw].
  { destruct (decide (Forall (fun z => - Z.of_nat (length l) <= z < Z.of_nat (length l))%Z ids /\ NoDup ((fun z => z mod Z.of_nat (length l))%Z <$> ids))) as [[H1 H2]|Hn].
    - eapply larry_take_ok; [done|done|done|by apply Forall_forall|done].
    - rewrite (larry_take_bad y ids axis a0 l) in H; [done|done|done|done|]. by rewrite <-Forall_forall. }
  rewrite Hw. f_equal. destruct (larry_take_spec z ids axis' w Hvz Hw) as (bx & lb & labb & Hbx & Hlbx & Hmb & _).
  assert (bx = b0) as -> by congruence. assert (lb = l) as -> by congruence. assert (labb = l') as -> by congruence.
  destruct (take_part z ids axis' w Hvz Hw) as (cx & lc & Hcx & Hpw & _). apply py_axis_is in Hcx. assert (cx = b0) as -> by congruence.
  eapply part_unique; [|exact Hpz]. assert (lc = l') as ->; [|done].
  destruct (larry_take_spec z ids axis' w Hvz Hw) as (bx & lb & labb & Hbx' & Hlbx' & Hmb' & _ & _ & Hlw & _).
  assert (bx = b0) as -> by congruence. assert (lb = l) as -> by congruence. assert (labb = l') as -> by congruence.
  destruct Hpw as (_ & _ & _ & E & _). rewrite Hlw in E. apply (f_equal (.!! b0)) in E. apply lookup_lt_Some in Hlbx. rewrite !list_lookup_insert in E by done. congruence.
Qed.
Lemma cells_take f y ids axis y' z : cell_method f -> valid y -> larry_take y ids axis = Ok y' -> f y = Ok z ->
  exists z', larry_take z ids axis = Ok z' /\ f y' = Ok z'.
Proof.
  intros Hf Hv Ht Hz. destruct (take_part y ids axis y' Hv Ht) as (a0 & l' & Ha & Hp & _).
  destruct (part_lpicks _ _ _ _ Hv Hp) as (ps & l & Hlp & _).
  destruct (cell_commutes f Hf ps a0 y y' Hv (lp_v' _ _ _ _ _ _ Hlp) (Hnp _ _ _ _ _ _ Hlp) z Hz) as (z' & Hz' & (x & x' & Ez & Ez' & Hx)).
  destruct (cells_part f y a0 l' y' z Hf Hv Hp Hz) as (z2 & Hz2 & Hpz). exists z2. split; [|done].
  eapply take_again; [exact Hv|by eapply cell_valid|exact Ht|exact Ha| | |exact Hp|exact Hpz]; by rewrite Ez.
Qed.
Lemma axis_is_nat y a : a < length (llabel y) -> axis_is y (Z.of_nat a) a.
Proof. intros H. split; [done|]. by left. Qed.
Lemma lanes_take f y axis ax ids a0 y' z : lane_method f -> valid y -> axis_is y axis ax -> ax <> a0 -> ids <> [] ->
  larry_take y ids (Z.of_nat a0) = Ok y' -> f y axis = Ok z -> exists z', larry_take z ids (Z.of_nat a0) = Ok z' /\ f y' axis = Ok z'.
Proof.
  intros Hf Hv Hax Hne Hids Ht Hz. destruct (take_part y ids _ y' Hv Ht) as (b0 & l' & Hb & Hp & Hlen).
  assert (b0 = a0) as -> by (destruct Hb as (? & [?|?]); lia).
  assert (Hl' : l' <> []) by (intros ->; by destruct ids).
  destruct (part_lpicks _ _ _ _ Hv Hp) as (ps & l & Hlp & _). pose proof Hlp as (_ & _ & _ & Hl & Hlab & Hps).
  destruct (lane_method_commutes f Hf ps a0 l l' y y' axis ax Hlp (part_nonempty _ _ _ Hps Hl') Hax Hne z Hz) as (z' & Hz' & Hr).
  assert (Hvz : valid z) by (by eapply lane_valid).
  assert (Hpz : part_of z a0 l' z') by (eapply lrel_part; [done|done|by eapply lpicks_nodup|done]).
  exists z'. split; [|done]. destruct Hr as (Hr1 & Hr2 & Hr3).
  eapply take_again; [exact Hv|exact Hvz|exact Ht|exact Hb| | |exact Hp|exact Hpz]; [|congruence].
  apply axis_is_nat. by eapply lookup_lt_Some.
Qed.
Lemma reductions_take f y axis ax ids a0 y' r : reduce_method f -> valid y -> axis_is y axis ax -> ax <> a0 -> ids <> [] ->
  larry_take y ids (Z.of_nat a0) = Ok y' -> f y axis = Ok r ->
  exists z z', r = OLar z /\ larry_take z ids (Z.of_nat (axis_left ax a0)) = Ok z' /\ f y' axis = Ok (OLar z').
Proof.
  intros Hf Hv Hax Hne Hids Ht Hz. destruct (take_part y ids _ y' Hv Ht) as (b0 & l' & Hb & Hp & Hlen).
  assert (b0 = a0) as -> by (destruct Hb as (? & [?|?]); lia).
  assert (Hl' : l' <> []) by (intros ->; by destruct ids).
  destruct (part_lpicks _ _ _ _ Hv Hp) as (ps & l & Hlp & _). pose proof Hlp as (_ & _ & _ & Hl & Hlab & Hps).
  destruct (reduce_method_commutes f Hf ps a0 l l' y y' axis ax Hlp (part_nonempty _ _ _ Hps Hl') Hax Hne r Hz) as (r' & Hr' & (z & z' & -> & -> & Hr)).
  assert (Hvz : valid z) by (by eapply reduce_method_valid).
  assert (Hpz : part_of z (axis_left ax a0) l' z') by (eapply lrel_part; [done|done|by eapply lpicks_nodup|done]).
  exists z, z'. split; [done|]. split; [|done]. destruct Hr as (Hr1 & Hr2 & Hr3).
  eapply take_again; [exact Hv|exact Hvz|exact Ht|exact Hb| | |exact Hp|exact Hpz]; [|congruence].
  apply axis_is_nat. by eapply lookup_lt_Some.
Qed.
