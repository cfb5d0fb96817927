(** C101: different calls with the same result; proofs about indexing. *)
From Verif Require Import StepsFacts IndexGet IndexFacts PropsIndex PropsLarry PropsAlign PropsOps SpecFacts SpecIndex LarryMove LarryFacts.
From Verif Require Import Larry Index Align.
From Verif Require Export SpecRoads.

Lemma at_axis_items ax it : index_items (at_axis ax it) = replicate ax (ISlice slice_all) ++ [it].
Proof. by destruct ax, it. Qed.

Definition sel_at (L : list (list lab)) (ax : nat) (s : sel) : list sel := (Among <$> take ax L) ++ s :: (Among <$> drop (S ax) L).

Lemma at_axis_selects L ax l it s : L !! ax = Some l -> selects l it s ->
  selects_all L (replicate ax (ISlice slice_all) ++ [it]) (sel_at L ax s).
Proof.
  intros Hl Hs. pose proof (lookup_lt_Some _ _ _ Hl) as Hlt. unfold selects_all.
  assert (length (replicate ax (ISlice slice_all) ++ [it]) = S ax) as E by (rewrite app_length, replicate_length; simpl; lia).
  rewrite E. split; [lia|]. unfold sel_at. rewrite <-(take_drop_middle L ax l Hl) at 1. rewrite <-app_assoc. simpl.
  apply Forall3_app.
  - pose proof (selects_whole (take ax L)) as H. by rewrite take_length, min_l in H by lia.
  - constructor; [done|]. pose proof (selects_whole (drop (S ax) L)) as H. by rewrite drop_length in H.
Qed.
Lemma omap_app' {A B} (f : A -> option B) l k : omap f (l ++ k) = omap f l ++ omap f k.
Proof. induction l as [|x l IH]; csimpl; [done|]. destruct (f x); simpl; by rewrite IH. Qed.
Lemma sel_labels_app ss1 ss2 : sel_labels (ss1 ++ ss2) = sel_labels ss1 ++ sel_labels ss2.
Proof. apply omap_app'. Qed.
Lemma sel_labels_at L ax l x : L !! ax = Some l -> sel_labels (sel_at L ax (At x)) = remove_at ax L.
Proof.
  intros Hl. unfold sel_at, remove_at. rewrite sel_labels_app, sel_labels_among, sel_labels_cons_at. by rewrite delete_take_drop.
Qed.
Lemma sel_labels_in L ax l l' : L !! ax = Some l -> sel_labels (sel_at L ax (Among l')) = <[ax := l']> L.
Proof.
  intros Hl. unfold sel_at. rewrite sel_labels_app, sel_labels_among, sel_labels_cons_among.
  by rewrite insert_take_drop by (by eapply lookup_lt_Some).
Qed.
Lemma sel_at_among L ax l l' : L !! ax = Some l -> sel_at L ax (Among l') = Among <$> <[ax := l']> L.
Proof.
  intros Hl. unfold sel_at. by rewrite insert_take_drop, fmap_app by (by eapply lookup_lt_Some).
Qed.
Lemma sel_full_at L ax l x ls : L !! ax = Some l -> length ls = pred (length L) -> sel_full (sel_at L ax (At x)) ls = Some (insert_at ax x ls).
Proof.
  unfold sel_at, insert_at. revert ax ls. induction L as [|k L IH]; intros ax ls Hl Hlen; [done|]. destruct ax as [|ax]; simpl in Hl, Hlen.
  - simpl. rewrite sel_full_among; [done|]. done.
  - pose proof (lookup_lt_Some _ _ _ Hl). destruct ls as [|a ls]; simpl in Hlen; [lia|].
    change (drop (S (S ax)) (k :: L)) with (drop (S ax) L). cbn [take fmap list_fmap app sel_full].
    rewrite (IH ax ls); [done|done|]. lia.
Qed.
Lemma restricted_unique y ss z w : restricted y ss z -> restricted y ss w -> z = w.
Proof.
  intros (Vz & Dz & Lz & Cz) (Vw & Dw & Lw & Cw). apply larry_ext; [done|done|congruence|congruence|].
  intros ls Hg. destruct (Cz ls Hg) as (f & Hf & ->). destruct (Cw ls) as (f' & Hf' & ->); [by rewrite Lw, <-Lz|]. congruence.
Qed.

Lemma at_axis_get y ax l it s : valid y -> llabel y !! ax = Some l -> item_ok it -> selects l it s ->
  Forall NoDup (sel_labels (sel_at (llabel y) ax s)) -> exists g, larry_getitem y (at_axis ax it) = Ok g /\ picked y (sel_at (llabel y) ax s) g.
Proof.
  intros Hv Hl Hok Hs HN. pose proof (at_axis_selects _ _ _ _ _ Hl Hs) as Ha.
  assert (P : forall i a, (replicate ax (ISlice slice_all) ++ [it]) !! i = Some a -> ~ is_slice a -> i = ax).
  { intros i a Hi Hn. apply lookup_app_Some in Hi as [Hi|[H1 H2]].
    - apply lookup_replicate in Hi as [-> _]. by destruct Hn.
    - rewrite replicate_length in H1, H2. destruct (i - ax) as [|k] eqn:E; [lia|done]. }
  apply C10_getitem_succeeds; rewrite ?at_axis_items; try done.
  - apply Forall_app. split; [|by constructor]. by apply Forall_replicate.
  - left. intros i j k a b c Hijk Hi Hj Hk Hna Hnc Hnb. apply (P i a) in Hi; [|done]. apply (P k c) in Hk; [|done]. lia.
  - intros i j a b Hi Hj Hla Hlb. assert (i = ax) by (apply (P i a Hi); destruct a; simpl in *; tauto). assert (j = ax) by (apply (P j b Hj); destruct b; simpl in *; tauto). congruence.
  - destruct ax as [|ax].
    + destruct it; [done| | | |]; simpl; intros Hf; by apply Forall_cons in Hf as [Hf _].
    + simpl. intros Hf. by apply Forall_cons in Hf as [Hf _].
Qed.

Lemma nodup_labels y : valid y -> Forall NoDup (llabel y).
Proof. intros Hv. apply Hv. Qed.
Lemma nodup_insert L ax (l : list lab) : Forall NoDup L -> NoDup l -> Forall NoDup (<[ax := l]> L).
Proof. intros HL Hl. apply Forall_insert; done. Qed.

(** A larry among the cells of [y] with a part of the labels of an axis. *)
Lemma at_axis_among y ax l it l' z : valid y -> llabel y !! ax = Some l -> item_ok it -> selects l it (Among l') ->
  valid z -> ldtype z = ldtype y -> llabel z = <[ax := l']> (llabel y) -> (forall ls, in_grid (llabel z) ls -> cell z ls = cell y ls) ->
  larry_getitem y (at_axis ax it) = Ok (GLar z).
Proof.
  intros Hv Hl Hok Hs Vz Dz Lz Cz.
  destruct (at_axis_get y ax l it (Among l') Hv Hl Hok Hs) as (g & Hg & Hp).
  { rewrite (sel_labels_in _ _ l) by done. rewrite <-Lz. by apply nodup_labels. }
  rewrite Hg. f_equal. destruct g as [w|v|a]; [|exfalso|done].
  - f_equal. apply (restricted_unique y _ _ _ Hp). split_and!; [done|done|by rewrite (sel_labels_in _ _ l)|].
    intros ls Hin. exists ls. split; [|by apply Cz]. rewrite (sel_at_among _ _ l) by done. apply sel_full_among. rewrite <-Lz. by apply in_grid_length.
  - destruct Hp as [Hp _]. rewrite (sel_labels_in _ _ l) in Hp by done. apply (f_equal length) in Hp. rewrite insert_length in Hp.
    pose proof (lookup_lt_Some _ _ _ Hl). simpl in Hp. lia.
Qed.

Lemma cell_iff_grid z y P : (forall ls v, cell z ls = Some v <-> cell y ls = Some v /\ P ls) -> valid z ->
  forall ls, in_grid (llabel z) ls -> cell z ls = cell y ls.
Proof. intros H Vz ls Hg. apply (valid_cell_grid _ _ Vz) in Hg as [v Hc]. rewrite Hc. symmetry. by apply H in Hc as [Hc _]. Qed.

(** take *)
Theorem take_road y zs a ax z : valid y -> axis_is y a ax -> larry_take y zs a = Ok z -> larry_getitem y (at_axis ax (IList zs)) = Ok (GLar z).
Proof.
  intros Hv Hax H. destruct (C11_take _ _ _ _ Hv H) as (ax' & l & l' & Hax' & Hl & Hm & Vz & Dz & Lz & Cz).
  rewrite <-(axis_unique _ _ _ _ Hax Hax') in *. apply (at_axis_among y ax l _ l'); try done.
  - by apply mapM_Some.
  - exact (cell_iff_grid z y (fun ls => _) Cz Vz).
Qed.
(** keep_label *)
Lemma chosen_filter (P : lab -> Prop) bs l k : Forall2 (fun x (b : bool) => b = true <-> P x) l bs ->
  k `sublist_of` l -> (forall x, x ∈ k <-> x ∈ l /\ P x) -> NoDup l -> k = chosen bs l.
Proof.
  intros H. revert k. induction H as [|x b l bs Hb H IH]; intros k Hs Hk HN.
  - by apply sublist_nil_r in Hs.
  - apply NoDup_cons in HN as [Hx HN]. simpl. destruct b.
    + assert (x ∈ k) as Hin by (apply Hk; split; [left|by apply Hb]).
      inversion Hs as [|? k' ? Hs'|? ? ? Hs']; subst.
      * f_equal. apply IH; [done| |done]. intros a. specialize (Hk a). rewrite !elem_of_cons in Hk. split.
        { intros Ha. destruct (proj1 Hk (or_intror Ha)) as [[->|?] ?]; [|done]. destruct Hx. by eapply elem_of_sub. }
        { intros [Ha Hp]. destruct (proj2 Hk (conj (or_intror Ha) Hp)) as [->|?]; [done|done]. }
      * destruct Hx. by eapply elem_of_sub.
    + assert (x ∉ k) as Hin. { intros Hin. apply Hk in Hin as [_ Hp]. by apply Hb in Hp. }
      inversion Hs as [|? k' ? Hs'|? ? ? Hs']; subst; [destruct Hin; left|].
      apply IH; [done| |done]. intros a. rewrite (Hk a), elem_of_cons. split; [|naive_solver].
      intros [[->|Ha] Hp]; [|done]. by apply Hb in Hp.
Qed.
Theorem keep_road y op a ax l bs z : valid y -> axis_is y a ax -> llabel y !! ax = Some l ->
  Forall2 (fun x (b : bool) => b = true <-> op_holds op x) l bs -> (exists x, x ∈ l /\ op_holds op x) ->
  keep_label y op (Some a) = Ok z -> larry_getitem y (at_axis ax (IBools bs)) = Ok (GLar z).
Proof.
  intros Hv Hax Hl Hb [x [Hx Hp]] H. destruct (C14_keep_label _ _ _ _ Hv H) as (ax' & l' & Hax' & Hl' & k & Hs & Hk & Hne & _).
  rewrite <-(axis_unique _ _ _ _ Hax Hax') in *. assert (l' = l) as -> by congruence.
  destruct Hne as (Vz & Dz & Lz & Cz). { intros ->. assert (x ∈ @nil lab) as E by (by apply Hk). by apply elem_of_nil in E. }
  apply (at_axis_among y ax l _ k); try done.
  - split.
    + eapply chosen_filter; try done. apply (Forall_lookup_1 _ _ _ _ (nodup_labels y Hv) Hl).
    + intros i Hi. apply lookup_lt_Some in Hi. by rewrite (Forall2_length _ _ _ Hb).
  - exact (cell_iff_grid z y (fun ls => _) Cz Vz).
Qed.
(** flipaxis *)
Theorem flip_road y a ax z : valid y -> axis_is y a ax -> flipaxis y (Some a) = Ok z ->
  larry_getitem y (at_axis ax (ISlice (Slice None None (Some (-1)%Z)))) = Ok (GLar z).
Proof.
  intros Hv Hax H. destruct (lookup_lt_is_Some_2 (llabel y) ax ltac:(apply Hax)) as [l Hl].
  destruct (C28_flipaxis _ _ _ _ Hv Hax Hl) as (z' & H' & Vz & Dz & Lz & Cz). assert (z' = z) as -> by congruence.
  apply (at_axis_among y ax l _ (reverse l)); try done.
  change (py_slice flip_slice l = Ok (reverse l)). unfold py_slice. rewrite (slice_positions_flip (length l)). cbn [mbind res_bind]. 
  assert (mapM (l !!.) (reverse (seq 0 (length l))) = Some (reverse l)) as ->; [|done].
  apply mapM_Some. apply Forall2_reverse. apply Forall2_same_length_lookup_2; [by rewrite seq_length|].
  intros i x y' Hi Hy. apply lookup_seq in Hi as [-> _]. done.
Qed.
(** pull *)
Theorem pull_road y x a ax l i z : valid y -> axis_is y a ax -> llabel y !! ax = Some l -> py_get l i = Some x ->
  pull y x (Some a) = Ok (OLar z) -> larry_getitem y (at_axis ax (IInt i)) = Ok (GLar z).
Proof.
  intros Hv Hax Hl Hi H.
  destruct (decide (lndim y = 1)) as [E|E]; [by destruct (C15_pull_1d _ _ _ _ Hv E H) as (v & [=] & _)|].
  pose proof (valid_ndim y Hv) as Hnd. assert (1 < lndim y) as Hn by (destruct Hax; lia).
  destruct (C15_pull _ _ _ _ Hv Hn H) as (ax' & l' & Hax' & Hl' & Hx & HP).
  rewrite <-(axis_unique _ _ _ _ Hax Hax') in *. assert (l' = l) as -> by congruence.
  destruct HP as (z' & [= <-] & Vz & Dz & Lz & Cz).
  { intros E1. destruct (remove_at ax (llabel y)) as [|k [|]] eqn:Er; try done. destruct k as [|n [|]]; try done.
    destruct (C15_pull_scalar _ _ _ _ _ n Hv Hax Hl Hx Er) as (v & Hv' & _). congruence. }
  destruct (at_axis_get y ax l (IInt i) (At x) Hv Hl) as (g & Hg & Hp); [done|done| |].
  { rewrite (sel_labels_at _ _ l), <-Lz by done. by apply nodup_labels. }
  assert (Hlen : length (llabel z) = pred (length (llabel y))).
  { rewrite Lz. unfold remove_at. rewrite length_delete by eauto. lia. }
  rewrite Hg. f_equal. destruct g as [w|v|b]; [|exfalso|done].
  - f_equal. apply (restricted_unique y _ _ _ Hp). split_and!; [done|done|by rewrite (sel_labels_at _ _ l)|].
    intros ls Hin. exists (insert_at ax x ls). split; [|by apply Cz]. apply (sel_full_at _ _ l); [done|]. by rewrite (in_grid_length _ _ Hin).
  - destruct Hp as [Hp _]. rewrite (sel_labels_at _ _ l), <-Lz in Hp by done. rewrite Hp in Hlen. simpl in Hlen. lia.
Qed.
