(** C101: different calls with the same result; morphing, aligning, label
    indexing, replacing NaNs. *)
From Verif Require Import StepsFacts IndexGet IndexLix IndexFacts PropsIndex PropsLarry PropsAlign PropsOps SpecFacts SpecIndex LarryMove LarryFacts ConvertFacts.
From Verif Require Import Larry Index Align Missing Ops.
From Verif Require Import RoadsFacts.

(** * What morph does to a part of the labels *)
Lemma morph_part y l a ax old z : valid y -> axis_is y a ax -> llabel y !! ax = Some old -> (forall x, x ∈ l -> x ∈ old) ->
  l = old \/ l <> [] -> valid z -> ldtype z = ldtype y -> llabel z = <[ax := l]> (llabel y) ->
  (forall ls, in_grid (llabel z) ls -> cell z ls = cell y ls) -> morph y l a = Ok z.
Proof.
  intros Hv Hax Hold Hsub Hne Vz Dz Lz Cz.
  assert (HN : NoDup l).
  { apply (Forall_lookup_1 _ (llabel z) ax); [by apply nodup_labels|]. rewrite Lz. apply list_lookup_insert. by eapply lookup_lt_Some. }
  destruct (proj2 (C16_morph_succeeds y l a Hv)) as [w Hw]; [eauto|]. rewrite Hw. f_equal.
  destruct (C16_morph _ _ _ _ Hv Hw) as (ax' & old' & Hax' & Hold' & _ & Lw & Rw & Dw).
  rewrite <-(axis_unique _ _ _ _ Hax Hax') in *. assert (old' = old) as -> by congruence.
  assert (Dwy : ldtype w = ldtype y).
  { rewrite Dw. destruct (decide _) as [|Hd]; [done|]. destruct Hd. destruct Hne as [->|Hne]; [by left|]. right. split; [done|]. by apply Forall_forall. }
  destruct Rw as (Vw & _ & _ & Cw). apply larry_ext; [done|done|congruence|congruence|].
  intros ls Hg. rewrite Cw by done. rewrite Lw, <-Lz in Hg. rewrite <-(Cz ls Hg).
  apply (valid_cell_grid _ _ Vz) in Hg as [v Hc]. rewrite Hc. f_equal. rewrite Dwy, <-Dz. apply cast_to_typed. by apply (valid_cell_typed z ls).
Qed.
Lemma label_of_insert y z a ax l l' old : axis_is y a ax -> llabel y !! ax = Some old -> llabel z = <[ax := l']> (llabel y) -> axis_label_is z a l -> l = l'.
Proof.
  intros Hax Hold Lz (ax' & Hax' & Hl). assert (axis_is y a ax') as H by (apply (axis_is_lab z); [by rewrite Lz, insert_length|done]).
  rewrite <-(axis_unique _ _ _ _ Hax H) in Hl. rewrite Lz, list_lookup_insert in Hl by (by eapply lookup_lt_Some). congruence.
Qed.
Theorem take_morph_road y zs a z l : valid y -> zs <> [] -> larry_take y zs a = Ok z -> axis_label_is z a l -> morph y l a = Ok z.
Proof.
  intros Hv Hne H Hl. destruct (C11_take _ _ _ _ Hv H) as (ax & old & l' & Hax & Hold & Hm & Vz & Dz & Lz & Cz).
  rewrite (label_of_insert _ _ _ _ _ _ _ Hax Hold Lz Hl). apply mapM_Some in Hm.
  apply (morph_part y l' a ax old); try done.
  - intros x Hx. apply elem_of_list_lookup in Hx as [i Hi]. destruct (Forall2_lookup_r _ _ _ _ _ Hm Hi) as (k & _ & Hk).
    apply py_get_mod in Hk as (j & _ & Hj). by eapply elem_of_list_lookup_2.
  - right. intros ->. by apply Forall2_nil_inv_r in Hm.
  - exact (cell_iff_grid z y (fun ls => _) Cz Vz).
Qed.
Theorem keep_morph_road y op a z l : valid y -> keep_label y op (Some a) = Ok z -> z <> empty_larry -> axis_label_is z a l -> morph y l a = Ok z.
Proof.
  intros Hv H Hz Hl. destruct (C14_keep_label _ _ _ _ Hv H) as (ax & old & Hax & Hold & k & Hs & Hk & Hne & Hemp).
  destruct (decide (k = [])) as [E|E]; [by destruct Hz; apply Hemp|]. destruct (Hne E) as (Vz & Dz & Lz & Cz).
  rewrite (label_of_insert _ _ _ _ _ _ _ Hax Hold Lz Hl). apply (morph_part y k a ax old); try done.
  - intros x Hx. by apply Hk.
  - by right.
  - exact (cell_iff_grid z y (fun ls => _) Cz Vz).
Qed.
Theorem flip_morph_road y a z l : valid y -> flipaxis y (Some a) = Ok z -> axis_label_is z a l -> morph y l a = Ok z.
Proof.
  intros Hv H Hl. assert (exists ax, axis_is y a ax) as [ax Hax].
  { destruct (py_axis y a) as [ax|e] eqn:E; [exists ax; by apply py_axis_is|].
    rewrite (C28_flipaxis_error y a) in H; [done|]. intros ax Hx. apply py_axis_is in Hx. congruence. }
  destruct (lookup_lt_is_Some_2 (llabel y) ax ltac:(apply Hax)) as [old Hold].
  destruct (C28_flipaxis _ _ _ _ Hv Hax Hold) as (z' & H' & Vz & Dz & Lz & Cz). assert (z' = z) as -> by congruence.
  rewrite (label_of_insert _ _ _ _ _ _ _ Hax Hold Lz Hl). apply (morph_part y (reverse old) a ax old); try done.
  - intros x. by rewrite elem_of_reverse.
  - destruct old as [|x old]; [by left|right]. intros E. apply (f_equal length) in E. rewrite reverse_length in E. done.
Qed.

(** * Left and right joins *)
Lemma labels_from y z : length (llabel z) = length (llabel y) ->
  (forall i l r, llabel y !! i = Some l -> llabel z !! i = Some r -> r = l) -> llabel z = llabel y.
Proof.
  intros Hlen H. apply list_eq. intros i. destruct (llabel y !! i) as [l|] eqn:E.
  - destruct (lookup_lt_is_Some_2 (llabel z) i) as [r Hr]; [rewrite Hlen; by eapply lookup_lt_Some|]. rewrite Hr. f_equal. by eapply H.
  - apply lookup_ge_None. rewrite Hlen. by apply lookup_ge_None.
Qed.
Lemma no_new y z : llabel z = llabel y -> no_new_label y z.
Proof. intros E i l r Hl Hr u Hu. rewrite E in Hr. assert (r = l) as -> by congruence. done. Qed.
Theorem left_road y1 y2 cast z1 z2 : valid y1 -> valid y2 -> missing_dtype (ldtype y2) = ldtype y2 ->
  align y1 y2 (JOne JLeft) cast = Ok (z1, z2) -> z1 = y1 /\ morph_like y2 y1 = Ok z2.
Proof.
  intros V1 V2 Hm H. destruct (C19_align _ _ _ _ _ _ V1 V2 H) as (Hnd & R1 & R2 & N1 & N2 & (js & Hjs & HL) & _ & D1 & _).
  pose proof (valid_ndim y1 V1) as M1. pose proof (valid_ndim y2 V2) as M2. simpl in Hjs. subst js.
  assert (HJ : forall i l1 l2 r1 r2, llabel y1 !! i = Some l1 -> llabel y2 !! i = Some l2 -> llabel z1 !! i = Some r1 -> llabel z2 !! i = Some r2 -> r1 = l1 /\ r2 = l1).
  { intros i l1 l2 r1 r2 A B C D. destruct (HL i l1 l2 r1 r2 A B C D) as (ji & Hj & Hl). apply lookup_replicate in Hj as [-> _]. exact Hl. }
  assert (L1 : llabel z1 = llabel y1).
  { apply labels_from; [done|]. intros i l r A B. destruct (lookup_lt_is_Some_2 (llabel y2) i) as [l2 E2]; [apply lookup_lt_Some in A; lia|].
    destruct (lookup_lt_is_Some_2 (llabel z2) i) as [r2 E3]; [apply lookup_lt_Some in A; lia|]. by apply (HJ i l l2 r r2). }
  assert (L2 : llabel z2 = llabel y1).
  { apply labels_from; [lia|]. intros i l r A B. destruct (lookup_lt_is_Some_2 (llabel y2) i) as [l2 E2]; [apply lookup_lt_Some in A; lia|].
    destruct (lookup_lt_is_Some_2 (llabel z1) i) as [r1 E3]; [apply lookup_lt_Some in A; lia|]. by apply (HJ i l l2 r1 r). }
  split.
  - apply (realigned_unique y1); [done|by apply realigned_refl|done|]. apply D1. by apply no_new.
  - destruct (C17_morph_like y2 y1 V2 V1) as (w & -> & Lw & Rw); [done|]. f_equal. apply (realigned_unique y2); [done|done|congruence|].
    destruct Rw as (_ & [Dw|Dw] & _), R2 as (_ & [Dz|Dz] & _); congruence.
Qed.
Theorem right_road y1 y2 cast z1 z2 : valid y1 -> valid y2 -> missing_dtype (ldtype y1) = ldtype y1 ->
  align y1 y2 (JOne JRight) cast = Ok (z1, z2) -> z2 = y2 /\ morph_like y1 y2 = Ok z1.
Proof.
  intros V1 V2 Hm H. destruct (C19_align _ _ _ _ _ _ V1 V2 H) as (Hnd & R1 & R2 & N1 & N2 & (js & Hjs & HL) & _ & _ & D2).
  pose proof (valid_ndim y1 V1) as M1. pose proof (valid_ndim y2 V2) as M2. simpl in Hjs. subst js.
  assert (HJ : forall i l1 l2 r1 r2, llabel y1 !! i = Some l1 -> llabel y2 !! i = Some l2 -> llabel z1 !! i = Some r1 -> llabel z2 !! i = Some r2 -> r1 = l2 /\ r2 = l2).
  { intros i l1 l2 r1 r2 A B C D. destruct (HL i l1 l2 r1 r2 A B C D) as (ji & Hj & Hl). apply lookup_replicate in Hj as [-> _]. exact Hl. }
  assert (L2 : llabel z2 = llabel y2).
  { apply labels_from; [done|]. intros i l r A B. destruct (lookup_lt_is_Some_2 (llabel y1) i) as [l1 E2]; [apply lookup_lt_Some in A; lia|].
    destruct (lookup_lt_is_Some_2 (llabel z1) i) as [r1 E3]; [apply lookup_lt_Some in A; lia|]. by apply (HJ i l1 l r1 r). }
  assert (L1 : llabel z1 = llabel y2).
  { apply labels_from; [lia|]. intros i l r A B. destruct (lookup_lt_is_Some_2 (llabel y1) i) as [l1 E2]; [apply lookup_lt_Some in A; lia|].
    destruct (lookup_lt_is_Some_2 (llabel z2) i) as [r2 E3]; [apply lookup_lt_Some in A; lia|]. by apply (HJ i l1 l r r2). }
  split.
  - apply (realigned_unique y2); [done|by apply realigned_refl|done|]. apply D2. by apply no_new.
  - destruct (C17_morph_like y1 y2 V1 V2) as (w & -> & Lw & Rw); [done|]. f_equal. apply (realigned_unique y1); [done|done|congruence|].
    destruct Rw as (_ & [Dw|Dw] & _), R1 as (_ & [Dz|Dz] & _); congruence.
Qed.

(** * NaNs *)
Theorem nan_road y v z : valid y -> ldtype y = DFloat -> nan_replace y v = Ok z -> (m ← larry_isnan y; larry_setmask y m v) = Ok z.
Proof.
  intros Hv Hd H. destruct (C38_nan_replace _ _ _ Hv H) as (Vz & Lz & Dz & _ & HC). destruct (HC Hd) as (n & Hn & Cz).
  destruct (C62_tests_succeed y) as [[m Hm] _]; [unfold arithmetic; rewrite Hd; auto|]. rewrite Hm. cbn [mbind res_bind].
  destruct (C62_isnan _ _ Hv Hm) as (_ & Vm & Lm & Dm & Cm).
  assert (Hs : store (ldtype y) v = Ok (VFloat n)).
  { rewrite Hd. apply store_float. destruct v; simpl in Hn; try done; injection Hn as <-; done. }
  destruct (C63_setmask_succeeds y m v (VFloat n)) as [w Hw]; [done..|]. rewrite Hw. f_equal.
  destruct (C63_setmask _ _ _ _ Hv Vm Dm Hw) as (_ & u & Hu & Vw & Dw & Lw & C1 & C2). assert (u = VFloat n) as -> by congruence.
  apply larry_ext; [done|done|congruence|congruence|]. intros ls Hg. rewrite Lw in Hg. apply (valid_cell_grid _ _ Hv) in Hg as [x Hx].
  rewrite Cz, Hx. simpl. destruct (Cm ls x Hx) as (k & b & Hk & Hb & Hbk).
  assert (Hxf : x = VFloat k). { pose proof (valid_cell_typed y ls x Hv Hx) as T. rewrite Hd in T. destruct x; try done. simpl in Hk. congruence. }
  destruct (decide (x = VFloat NaN)) as [E|E].
  - rewrite C1; [done|]. rewrite Hb. do 2 f_equal. apply Hbk. congruence.
  - rewrite C2; [done|]. rewrite Hb. intros [= ->]. apply E. rewrite Hxf. f_equal. by apply Hbk.
Qed.

(** * lix *)
Lemma lix_whole (L : list (list lab)) : Forall3 lix_labels L (replicate (length L) lix_full) L.
Proof.
  induction L as [|l L IH]; simpl; constructor; [|done]. exists None, None. split_and!; [done|done|]. apply py_slice_all.
Qed.
Theorem lix_pull_road y x z : valid y -> ~ 0 ∈ lshape y -> pull y x (Some 0%Z) = Ok (OLar z) -> lix_get y (LxLabels [x]) = Ok (GLar z).
Proof.
  intros Hv H0 H. assert (Hax : axis_is y 0 0). { split; [|by left]. destruct Hv as (_ & Hn & _). destruct (llabel y); [done|simpl; lia]. }
  destruct (llabel y) as [|l L] eqn:El; [by destruct Hv as (_ & Hn & _)|].
  assert (Hx : x ∈ l).
  { destruct (proj1 (C15_pull_total y x 0 Hv)) as (ax & l' & Hax' & Hl' & Hx); [eauto|].
    rewrite <-(axis_unique _ _ _ _ Hax Hax'), El in Hl'. simpl in Hl'. congruence. }
  apply elem_of_list_lookup in Hx as [i Hi].
  pose proof (pull_road y x 0 0 l (Z.of_nat i) z Hv Hax) as HP. rewrite El in HP. specialize (HP eq_refl).
  destruct (C12_lix_get_partial y (LxLabels [x]) ([x] :: L)) as (g & Hg & Hp); [done|done| | |done|].
  - unfold lix_block, lix_all. rewrite El. split; [simpl; lia|]. simpl. rewrite Nat.sub_0_r. constructor; [|apply lix_whole].
    split; [done|]. intros y0 ->%elem_of_list_singleton. by eapply elem_of_list_lookup_2.
  - constructor; [apply NoDup_singleton|]. pose proof (nodup_labels y Hv) as HN. rewrite El in HN. by apply Forall_cons in HN as [_ HN].
  - assert (Hgi : py_get l (Z.of_nat i) = Some x).
    { apply py_get_mod. exists i. split; [|done]. apply py_index_Some. split; [by eapply lookup_lt_Some|by left]. }
    specialize (HP Hgi H). rewrite Hg. f_equal.
    destruct (at_axis_get y 0 l (IInt (Z.of_nat i)) (At x) Hv) as (g' & Hg' & Hp'); [by rewrite El|done|done| |].
    { rewrite El, (sel_labels_at (l :: L) 0 l) by done. pose proof (nodup_labels y Hv) as HN. rewrite El in HN. by apply Forall_cons in HN as [_ HN]. }
    rewrite HP in Hg'. injection Hg' as <-. rewrite El in Hp'.
    assert (E : sel_at (l :: L) 0 (At x) = lix_sel (LxLabels [x]) ([x] :: L)) by done. rewrite E in Hp'.
    destruct g as [w|v|b]; [|exfalso|done]; [f_equal; by eapply restricted_unique|].
    destruct Hp as [Hp _], Hp' as (Vz & _ & Lz & _). rewrite Hp in Lz. by apply Vz.
Qed.
Theorem lix_get_road y ls v : valid y -> larry_get y ls = Ok v -> lix_get y (LxTuple ((fun x => LLabels [x]) <$> ls)) = Ok (GVal v).
Proof.
  intros Hv H. apply C09_get in H; [|done].
  assert (Hg : in_grid (llabel y) ls) by (apply (valid_cell_grid _ _ Hv); eauto).
  assert (H0 : ~ 0 ∈ lshape y).
  { rewrite <-(valid_shape y Hv). intros (l & El & Hl)%elem_of_list_fmap. apply elem_of_list_lookup in Hl as [i Hi].
    destruct (Forall2_lookup_r _ _ _ _ _ Hg Hi) as (x & _ & Hx). symmetry in El. apply nil_length_inv in El as ->. by apply elem_of_nil in Hx. }
  destruct (C12_lix_get_partial y (LxTuple ((fun x => LLabels [x]) <$> ls)) ((fun x => [x]) <$> ls)) as (g & Hgg & Hp); [done|done| | | |].
  - unfold lix_block, lix_all. simpl. rewrite fmap_length. rewrite (in_grid_length _ _ Hg). split; [lia|]. rewrite Nat.sub_diag. simpl. rewrite app_nil_r.
    clear -Hg. induction Hg as [|x l ls L Hx Hg IH]; csimpl; constructor; [|done]. split; [done|]. by intros y0 ->%elem_of_list_singleton.
  - apply Forall_fmap, Forall_true. intros x. apply NoDup_singleton.
  - apply Forall_fmap, Forall_true. done.
  - rewrite Hgg. f_equal. assert (E : lix_sel (LxTuple ((fun x => LLabels [x]) <$> ls)) ((fun x => [x]) <$> ls) = At <$> ls).
    { simpl. rewrite <-list_fmap_compose. done. }
    rewrite E in Hp. assert (E2 : sel_labels (At <$> ls) = []) by (clear; induction ls; done).
    assert (E3 : sel_full (At <$> ls) [] = Some ls).
    { clear. induction ls as [|x ls IH]; [done|]. change ((full ← sel_full (At <$> ls) []; Some (x :: full)) = Some (x :: ls)). by rewrite IH. }
    destruct g as [w|u|b]; [exfalso| |done].
    + destruct Hp as (Vw & _ & Lw & _). rewrite E2 in Lw. by apply Vw.
    + destruct Hp as [_ (full & Hf & Hc)]. congruence.
Qed.

(** * squeeze *)
Lemma others_long {A} (L : list (list A)) ax l : L !! ax = Some l -> length l = 1 -> (forall i k, L !! i = Some k -> i <> ax -> length k <> 1) ->
  filter (fun axis => length axis <> 1) L = delete ax L.
Proof.
  revert ax. induction L as [|k L IH]; intros ax Hl H1 HL; [done|]. destruct ax as [|ax]; simpl in Hl.
  - injection Hl as ->. rewrite filter_cons_False by tauto. simpl.
    assert (HA : Forall (fun axis : list A => length axis <> 1) L) by (apply Forall_lookup_2; intros i k Hk; by apply (HL (S i) k)).
    clear -HA. induction HA as [|k L Hk HA IH]; [done|]. rewrite filter_cons_True by done. by rewrite IH.
  - rewrite filter_cons_True by (by apply (HL 0)). simpl. f_equal. apply IH; [done|done|]. intros i k' Hk' Hne. apply (HL (S i)); [done|lia].
Qed.
Lemma drop_insert {A B} (L : list (list A)) ax l (x : B) ls : L !! ax = Some l -> length l = 1 -> (forall i k, L !! i = Some k -> i <> ax -> length k <> 1) ->
  length ls = pred (length L) -> drop_ones L (insert_at ax x ls) = ls.
Proof.
  unfold insert_at. revert ax ls. induction L as [|k L IH]; intros ax ls Hl H1 HL Hlen; [done|]. destruct ax as [|ax]; simpl in Hl.
  - injection Hl as ->. change (drop_ones (l :: L) (x :: ls) = ls). rewrite drop_ones_cons, decide_True by done. simpl in Hlen. clear -HL Hlen.
    assert (HA : Forall (fun axis : list A => length axis <> 1) L) by (apply Forall_lookup_2; intros i k Hk; by apply (HL (S i) k)).
    clear HL. revert ls Hlen. induction HA as [|k L Hk HA IH]; intros [|y ls] Hlen; try done. rewrite drop_ones_cons, decide_False by done. by rewrite IH by (by injection Hlen).
  - pose proof (lookup_lt_Some _ _ _ Hl). destruct ls as [|y ls]; simpl in Hlen; [lia|]. simpl. rewrite drop_ones_cons, decide_False by (by apply (HL 0)).
    f_equal. apply IH; [done|done| |lia]. intros i k' Hk' Hne. apply (HL (S i)); [done|lia].
Qed.
Theorem squeeze_road y a ax x : valid y -> 1 < lndim y -> axis_is y a ax -> llabel y !! ax = Some [x] ->
  (forall i l, llabel y !! i = Some l -> i <> ax -> length l <> 1) -> pull y x (Some a) = Ok (OLar (squeeze y)).
Proof.
  intros Hv Hn Hax Hx HL. destruct (proj2 (C15_pull_total y x a Hv)) as [o Ho]; [exists ax, [x]; split_and!; [done|done|left]|]. rewrite Ho. f_equal.
  destruct (C15_pull _ _ _ _ Hv Hn Ho) as (ax' & l & Hax' & Hl & _ & HP). rewrite <-(axis_unique _ _ _ _ Hax Hax') in *.
  assert (HF : filter (fun axis => length axis <> 1) (llabel y) = remove_at ax (llabel y)) by (by apply (others_long _ _ [x])).
  pose proof (valid_ndim y Hv) as Hnd.
  assert (Hlen : length (remove_at ax (llabel y)) = pred (length (llabel y))) by (unfold remove_at; rewrite length_delete by eauto; lia).
  destruct (C30_squeeze y Hv) as (Ls & Ds & Vs & Cs).
  assert (Hother : forall k, k ∈ remove_at ax (llabel y) -> k ∈ llabel y /\ length k <> 1).
  { intros k. rewrite <-HF, elem_of_list_filter. tauto. }
  destruct HP as (z & -> & Vz & Dz & Lz & Cz).
  { intros E. destruct (remove_at ax (llabel y)) as [|k [|]] eqn:Er; try done. destruct (Hother k); [left|]. by injection E. }
  f_equal. assert (valid (squeeze y)) as Vsq.
  { apply Vs. destruct (remove_at ax (llabel y)) as [|k r] eqn:Er; [simpl in Hlen; lia|]. exists k. apply Hother. left. }
  apply larry_ext; [done|done|congruence|by rewrite Lz, Ls, HF|]. intros ls Hg. rewrite (Cz ls Hg).
  assert (Hli : length ls = pred (length (llabel y))) by (by rewrite (in_grid_length _ _ Hg), Lz, Hlen).
  assert (Hgi : in_grid (llabel y) (insert_at ax x ls)).
  { apply (valid_cell_grid _ _ Hv). rewrite <-(Cz ls Hg). by apply (valid_cell_grid _ _ Vz). }
  rewrite <-(Cs _ Hgi). by rewrite (drop_insert _ ax [x]).
Qed.
