(** C101: different calls with the same result; further proofs. *)
From Verif Require Import StepsFacts IndexGet IndexFacts PropsIndex PropsLarry PropsAlign PropsOps SpecFacts SpecIndex LarryMove LarryFacts.
From Verif Require Import Larry Index Align Missing Ops.
From Verif Require Import RoadsFacts.

(** * One element *)
Lemma selects_ints L zs ls : Forall3 (fun l z x => py_get l z = Some x) L zs ls -> selects_all L (IInt <$> zs) (At <$> ls).
Proof.
  intros H. assert (length zs = length L) as E by (induction H; simpl; congruence).
  split; [rewrite fmap_length; lia|]. rewrite fmap_length, E, Nat.sub_diag. simpl. rewrite app_nil_r.
  clear E. induction H; simpl; constructor; done.
Qed.
Lemma sel_labels_ats ls : sel_labels (At <$> ls) = [].
Proof. induction ls; done. Qed.
Lemma sel_full_ats ls : sel_full (At <$> ls) [] = Some ls.
Proof. induction ls as [|x ls IH]; [done|]. change ((full ← sel_full (At <$> ls) []; Some (x :: full)) = Some (x :: ls)). by rewrite IH. Qed.
Lemma ints_joined zs : joined (IInt <$> zs).
Proof.
  intros i j k a b c _ _ Hb _ _ _. apply list_lookup_fmap_Some in Hb as (z & _ & ->). by intros H.
Qed.
Lemma ints_one_list zs : one_list (IInt <$> zs).
Proof. intros i j a b Ha _ Hla _. apply list_lookup_fmap_Some in Ha as (z & _ & ->). done. Qed.
Lemma ints_ok zs : Forall item_ok (IInt <$> zs) /\ Forall not_larry (IInt <$> zs).
Proof. split; apply Forall_fmap, Forall_true; done. Qed.
Lemma Forall3_len {A B C} (P : A -> B -> C -> Prop) l k m : Forall3 P l k m -> length k = length l /\ length m = length l.
Proof. induction 1 as [|? ? ? ? ? ? ? ? [IH1 IH2]]; simpl; [done|]. split; congruence. Qed.
Lemma positions_grid L zs ls : Forall3 (fun l z x => py_get l z = Some x) L zs ls -> in_grid L ls.
Proof.
  unfold in_grid. induction 1 as [|l z x L zs ls H _ IH]; constructor; [|done].
  apply py_get_mod in H as (i & _ & H). by eapply elem_of_list_lookup_2.
Qed.

Theorem get_road y zs ls : valid y -> positions_of y zs ls ->
  exists v, larry_get y ls = Ok v /\ larry_getitem y (XTuple (IInt <$> zs)) = Ok (GVal v).
Proof.
  intros Hv H. pose proof (positions_grid _ _ _ H) as Hg. apply (valid_cell_grid _ _ Hv) in Hg as [v Hc]. exists v.
  split; [by apply C09_get|]. destruct (C10_getitem_succeeds y (XTuple (IInt <$> zs)) (At <$> ls)) as (g & Hg & Hp).
  - done.
  - apply ints_ok.
  - left. apply ints_joined.
  - apply ints_one_list.
  - simpl. intros _. rewrite fmap_length. apply (Forall3_len _ _ _ _ H).
  - by apply selects_ints.
  - by rewrite sel_labels_ats.
  - rewrite Hg. f_equal. destruct g as [w|u|b]; [exfalso| |done].
    + destruct Hp as (Vw & _ & Lw & _). rewrite sel_labels_ats in Lw. by apply Vw.
    + destruct Hp as [_ (full & Hf & Hc')]. rewrite sel_full_ats in Hf. congruence.
Qed.
Theorem set_road y zs ls v : valid y -> positions_of y zs ls ->
  larry_setitem y (XTuple (IInt <$> zs)) (SVal v) = larry_set y ls v \/
  exists e e', larry_setitem y (XTuple (IInt <$> zs)) (SVal v) = Err e /\ larry_set y ls v = Err e'.
Proof.
  intros Hv H. pose proof (positions_grid _ _ _ H) as Hg.
  destruct (larry_set y ls v) as [z|e] eqn:E.
  - left. destruct (C09_set _ _ _ _ Hv E) as (Vz & Lz & Sz & Dz & w & Hw & Cw & Co).
    destruct (C63_setitem_succeeds y (XTuple (IInt <$> zs)) v w (At <$> ls)) as [z' E']; [done|apply ints_ok|apply ints_one_list|by apply selects_ints|done|].
    rewrite E'. f_equal. destruct (C63_setitem y (XTuple (IInt <$> zs)) v z' Hv) as (ss & u & Hs & Hu & Vz' & Dz' & Lz' & C1 & C2); [apply ints_ok|apply ints_one_list|done|].
    assert (ss = At <$> ls) as ->.
    { destruct Hs as [_ Hs]. destruct (selects_ints _ _ _ H) as [_ Hs']. simpl in Hs.
      assert (Hi : forall it, it ∈ (IInt <$> zs) ++ replicate (length (llabel y) - length (IInt <$> zs)) (ISlice slice_all) -> exists z, it = IInt z).
      { intros it. rewrite fmap_length. rewrite (proj1 (Forall3_len _ _ _ _ H)), Nat.sub_diag. simpl. rewrite app_nil_r. intros (z0 & -> & _)%elem_of_list_fmap. eauto. }
      revert Hs Hs' Hi. generalize ((IInt <$> zs) ++ replicate (length (llabel y) - length (IInt <$> zs)) (ISlice slice_all)) as its. clear.
      generalize (llabel y) as L. intros L its Hs. revert ls. induction Hs as [|l it s L its ss H1 H2 IH]; intros ls Hs' Hi.
      - inversion Hs' as [E1 E2 E3|]. destruct ls; done.
      - inversion Hs' as [|? ? s' ? ? ss' H3 H4 E1 E2 E3]; subst. destruct ls as [|x ls]; [done|]. injection E3 as -> ->.
        destruct (Hi it) as [z ->]; [left|]. destruct s as [x'|]; [|done]. simpl in H1, H3. simpl. f_equal; [congruence|].
        apply IH; [done|]. intros it Hit. apply Hi. by right. }
    assert (u = w) as -> by congruence. apply larry_ext; [done|done|congruence|congruence|]. intros ls' Hg'.
    destruct (decide (ls' = ls)) as [->|Hne].
    + destruct (C1 [] ls) as (w' & Hc & ->); [rewrite sel_labels_ats; constructor|apply sel_full_ats|]. congruence.
    + rewrite Co by done. apply C2. intros ls0 Hg0. rewrite sel_labels_ats in Hg0. apply Forall2_nil_inv_r in Hg0 as ->. rewrite sel_full_ats. congruence.
  - right. destruct (larry_setitem y (XTuple (IInt <$> zs)) (SVal v)) as [z|e'] eqn:E'; [|by eauto].
    destruct (C63_setitem y (XTuple (IInt <$> zs)) v z Hv) as (ss & u & Hs & Hu & _); [apply ints_ok|apply ints_one_list|done|].
    destruct (C09_set_total y ls v u Hv Hg Hu) as [? ?]. congruence.
Qed.

(** * fill and y[:] = v *)
Theorem fill_road y v z : valid y -> larry_fill y v = Ok z -> larry_setitem y (XSlice slice_all) (SVal v) = Ok z.
Proof.
  intros Hv H. destruct (C09_fill _ _ _ Hv H) as (Vz & Lz & Dz & w & Hw & Cw).
  destruct (llabel y) as [|l L] eqn:El; [by destruct Hv as (_ & Hn & _)|].
  assert (Hsel : selects_all (llabel y) (index_items (XSlice slice_all)) (Among <$> llabel y)).
  { rewrite El. apply (selects_single l L (ISlice slice_all) (Among l)). apply py_slice_all. }
  assert (H1 : one_list [ISlice slice_all]). { intros i j a b Ha Hb Hla Hlb. apply list_lookup_singleton_Some in Ha as [_ <-]. done. }
  assert (H2 : Forall not_larry [ISlice slice_all]) by (by constructor).
  destruct (C63_setitem_succeeds y (XSlice slice_all) v w (Among <$> llabel y)) as [z' E']; try done.
  rewrite E'. f_equal. destruct (C63_setitem y (XSlice slice_all) v z' Hv) as (ss & u & Hs & Hu & Vz' & Dz' & Lz' & C1 & C2); [done|done|done|].
  assert (ss = Among <$> llabel y) as ->.
  { rewrite El in Hs. apply selects_single_inv in Hs as (s & -> & Hs). rewrite El. simpl. f_equal. destruct s as [|l']; [done|]. simpl in Hs. rewrite py_slice_all in Hs. by injection Hs as ->. }
  apply larry_ext; [done|done|congruence|congruence|]. intros ls Hg. rewrite Lz', El in Hg. rewrite (Cw ls Hg).
  destruct (C1 ls ls) as (w' & Hc & ->); [by rewrite sel_labels_among, El|apply sel_full_among; rewrite El; by apply in_grid_length|]. congruence.
Qed.

(** * Transposing *)
Theorem T_road y : valid y -> lndim y = 2 -> swapaxes y 0 1 = larry_T y.
Proof.
  intros Hv H2. pose proof (valid_ndim y Hv) as Hn. destruct (C29_transpose y Hv) as (z & -> & Vz & Dz & Lz & Cz).
  destruct (C29_swapaxes y 0 1 0 1 Hv) as (w & -> & Vw & Dw & Lw & Cw); [split; [lia|by left]..|].
  f_equal. destruct (llabel y) as [|a [|b [|]]] eqn:El; simpl in Hn; try lia.
  apply larry_ext; [done|done|congruence|by rewrite Lw, Lz|]. intros ls Hg. rewrite Lw in Hg. unfold swap_total in Hg.
  inversion Hg as [|p ? q0 r0 Hp Hg']; subst. inversion Hg' as [|q ? q1 r1 Hq Hg2]; subst. inversion Hg2; subst.
  rewrite Cz. exact (Cw [q; p] ltac:(by constructor; [|constructor])).
Qed.

(** * Sorting and aligning by morphing *)
Theorem sort_road y a reverse z l : valid y -> sortaxis y (Some a) reverse = Ok z -> axis_label_is z a l -> morph y l a = Ok z.
Proof.
  intros Hv H (ax & Hax & Hl). destruct (C27_sortaxis _ _ _ _ Hv H) as (Vz & Dz & Hlen & Cz & HL).
  assert (Haxy : axis_is y a ax) by (by apply (axis_is_lab z)).
  destruct (lookup_lt_is_Some_2 (llabel y) ax ltac:(apply Haxy)) as [old Hold].
  destruct (HL ax old l Hold Hl) as (Hp & _).
  assert (HN : NoDup l) by (apply (Forall_lookup_1 _ _ _ _ (nodup_labels z Vz) Hl)).
  destruct (proj2 (C16_morph_succeeds y l a Hv)) as [w Hw]; [eauto|]. rewrite Hw. f_equal.
  destruct (C16_morph _ _ _ _ Hv Hw) as (ax' & old' & Hax' & Hold' & _ & Lw & Rw & Dw).
  rewrite <-(axis_unique _ _ _ _ Haxy Hax') in *. assert (old' = old) as -> by congruence.
  assert (Dwy : ldtype w = ldtype y).
  { rewrite Dw. destruct (decide _) as [|Hd]; [done|]. destruct Hd. destruct (decide (l = [])) as [->|Hne].
    - left. by apply Permutation_nil in Hp as ->.
    - right. split; [done|]. apply Forall_forall. intros x Hx. by rewrite <-Hp. }
  assert (HLL : llabel w = llabel z).
  { rewrite Lw. apply list_eq. intros i. destruct (decide (i = ax)) as [->|Hne].
    - rewrite list_lookup_insert by (by eapply lookup_lt_Some). done.
    - rewrite list_lookup_insert_ne by done. destruct (llabel y !! i) as [li|] eqn:Ei.
      + destruct (lookup_lt_is_Some_2 (llabel z) i) as [l' El']; [rewrite Hlen; by eapply lookup_lt_Some|].
        destruct (HL i li l' Ei El') as (_ & _ & Hsame). rewrite El'. f_equal. symmetry. apply Hsame. intros Hs.
        assert (axis_is y a i) as Hi by exact Hs. apply Hne. by eapply axis_unique.
      + symmetry. apply lookup_ge_None. rewrite Hlen. by apply lookup_ge_None. }
  destruct Rw as (Vw & _ & _ & Cw). apply larry_ext; [done|done|congruence|done|].
  intros ls Hg. rewrite Cw, Cz by done. rewrite HLL in Hg. apply (valid_cell_grid _ _ Vz) in Hg as [v Hc]. rewrite Cz in Hc. rewrite Hc. f_equal.
  rewrite Dwy. apply cast_to_typed. by apply (valid_cell_typed y ls).
Qed.
