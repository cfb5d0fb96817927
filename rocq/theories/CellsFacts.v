(** C104: a larry as a table of elements. *)
From Verif Require Import NDArrayFacts SpecFacts PropsAlign PropsLarry LarryFacts Align.
From Verif Require Export SpecCells.

Lemma bind_lookup {A B} (f : A -> list B) m (l : list A) i a j : (forall x, length (f x) = m) -> l !! i = Some a -> j < m ->
  (l ≫= f) !! (i * m + j) = f a !! j.
Proof.
  intros Hf. revert i. induction l as [|x l IH]; intros [|i] Hi Hj; try done; csimpl.
  - injection Hi as ->. rewrite lookup_app_l; [done|]. simpl. by rewrite Hf.
  - rewrite lookup_app_r by (rewrite Hf; lia). rewrite Hf. replace (m + i * m + j - m) with (i * m + j) by lia. by apply IH.
Qed.
Lemma bind_length' {A B} (f : A -> list B) m (l : list A) : (forall x, length (f x) = m) -> length (l ≫= f) = length l * m.
Proof. intros Hf. induction l as [|x l IH]; csimpl; [done|]. by rewrite app_length, Hf, IH. Qed.
Lemma combinations_length L : length (combinations L) = size_of (length <$> L).
Proof. induction L as [|l L IH]; [done|]. csimpl. rewrite (bind_length' _ (size_of (length <$> L))); [done|]. intros x. by rewrite fmap_length. Qed.
Lemma combinations_lookup L idx ls : labels_at L idx ls -> combinations L !! ravel (length <$> L) idx = Some ls.
Proof.
  unfold labels_at. induction 1 as [|l i a L idx ls Hi H IH]; [done|]. csimpl.
  rewrite (bind_lookup _ _ _ _ a).
  - by rewrite list_lookup_fmap, IH.
  - intros x. by rewrite fmap_length, combinations_length.
  - done.
  - apply ravel_lt. by eapply labels_at_in_range.
Qed.
Lemma of_type_has dt v : has_dtype dt v = true <-> of_type dt v.
Proof. destruct dt, v; simpl; naive_solver. Qed.

Theorem table_valid dt sh xs L : valid (Larry (Nda dt (Arr sh xs)) L) <->
  L <> [] /\ sh = length <$> L /\ Forall NoDup L /\ length xs = length (combinations L) /\ Forall (of_type dt) xs.
Proof.
  unfold valid, nda_wf, arr_wf, lshape, asize. simpl. rewrite combinations_length.
  assert (Forall (fun v => has_dtype dt v = true) xs <-> Forall (of_type dt) xs) as -> by (apply Forall_iff; intros; apply of_type_has).
  split.
  - intros ((H1 & H2) & H3 & H4 & H5). change (length <$> L = sh) in H4. subst sh. done.
  - intros (H1 & -> & H3 & H4 & H5). done.
Qed.
Theorem table_cells y : valid y -> Forall2 (fun ls v => cell y ls = Some v) (combinations (llabel y)) (data (larr y)).
Proof.
  intros Hv. pose proof (valid_shape y Hv) as Hsh. destruct Hv as ((Hwf & Ht) & Hne & Hs & HN) eqn:E. clear E. 
  apply Forall2_same_length_lookup. split.
  - rewrite combinations_length, Hs. symmetry. apply Hwf.
  - intros k ls v Hls Hd. destruct (ravel_surj (lshape y) k) as (idx & Hr & Hk).
    { apply lookup_lt_Some in Hd. unfold larr, lshape in *. by rewrite Hwf in Hd. }
    rewrite <-Hs in Hr. destruct (labels_at_exists _ _ Hr) as [ls' Hl]. pose proof (combinations_lookup _ _ _ Hl) as Hc. rewrite Hs, Hk, Hls in Hc. injection Hc as <-.
    apply cell_Some; [done|]. exists idx. split; [done|]. change (shape (larr y)) with (lshape y) in *. rewrite Hs in Hr. rewrite get_ravel by exact Hr. change (shape (larr y)) with (lshape y). by rewrite Hk.
Qed.
Theorem table_type y ls v : valid y -> cell y ls = Some v -> of_type (ldtype y) v.
Proof.
  intros Hv Hc. destruct Hv as ((Hwf & Ht) & Hne & Hs & HN). apply cell_Some in Hc as (idx & _ & Hc); [|done].
  unfold aget in Hc. case_decide; [|done]. apply of_type_has. exact (Forall_lookup_1 _ _ _ _ Ht Hc).
Qed.
Theorem table_one y ls : valid y -> (exists v, cell y ls = Some v) <-> in_grid (llabel y) ls.
Proof. apply valid_cell_grid. Qed.
Theorem combinations_grid L ls : ls ∈ combinations L <-> in_grid L ls.
Proof.
  unfold in_grid. revert ls. induction L as [|l L IH]; intros ls; simpl.
  - rewrite elem_of_list_singleton. split; [by intros ->|]. by inversion 1.
  - rewrite elem_of_list_bind. split.
    + intros (a & (ls' & -> & H)%elem_of_list_fmap & Ha). constructor; [done|]. by apply IH.
    + inversion 1; subst. eexists. split; [|done]. apply elem_of_list_fmap. eexists. split; [done|]. by apply IH.
Qed.
Lemma cast_number v : of_type DInt v \/ of_type DBool v -> same_number v (cast_to DFloat v).
Proof.
  intros [[z ->]|[b ->]]; simpl.
  - eexists. by split.
  - destruct b; eexists; (split; [done|]); done.
Qed.
Theorem morph_promoted y label axis z : valid y -> morph y label axis = Ok z -> ldtype y = DInt \/ ldtype y = DBool -> ldtype z <> ldtype y ->
  ldtype z = DFloat /\ forall ls v, in_grid (llabel z) ls -> cell y ls = Some v -> exists w, cell z ls = Some w /\ same_number v w.
Proof.
  intros Hv H Hdt Hne. destruct (C16_morph _ _ _ _ Hv H) as (ax & old & _ & _ & _ & _ & (Vz & Dz & _ & Cz) & _).
  assert (ldtype z = DFloat) as E. { destruct Dz as [?|Dz]; [done|]. rewrite Dz. by destruct Hdt as [->| ->]. }
  split; [done|]. intros ls v Hg Hc. pose proof (table_type _ _ _ Hv Hc) as Ht. rewrite (Cz ls Hg), Hc, E. eexists. split; [done|].
  apply cast_number. destruct Hdt as [Hd|Hd]; rewrite Hd in Ht; eauto.
Qed.
Theorem morph_kept y label axis z : valid y -> morph y label axis = Ok z -> ldtype z = ldtype y ->
  forall ls v, in_grid (llabel z) ls -> cell y ls = Some v -> cell z ls = Some v.
Proof.
  intros Hv H E ls v Hg Hc. destruct (C16_morph _ _ _ _ Hv H) as (ax & old & _ & _ & _ & _ & (Vz & Dz & _ & Cz) & _).
  pose proof (table_type _ _ _ Hv Hc) as Ht. rewrite (Cz ls Hg), Hc, E. f_equal.
  destruct (ldtype y); simpl in *; try done; destruct Ht as [? ->]; done.
Qed.
