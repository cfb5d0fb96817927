(** Facts about relabelled larrys. *)
From Verif Require Export SpecRelabel OrderFacts LarryMove.
From stdpp Require Import sorting.

Lemma rl_inj f g : relabelling f g -> Inj (=) (=) f.
Proof. intros [Hg _ _ _] x y E. rewrite <-(Hg x), <-(Hg y). by rewrite E. Qed.
Lemma rename_list_inj f g : relabelling f g -> Inj (=) (=) (rename_list f).
Proof. intros Hf l1 l2. unfold rename_list. intros E. pose proof (rl_inj f g Hf). by apply (inj (fmap f)) in E. Qed.
Lemma rename_lists_inj f g : relabelling f g -> Inj (=) (=) (rename_lists f).
Proof. intros Hf l1 l2 E. unfold rename_lists in E. pose proof (rename_list_inj f g Hf). by apply (inj (fmap (rename_list f))) in E. Qed.
Lemma rename_list_length f l : length (rename_list f l) = length l.
Proof. unfold rename_list. by rewrite fmap_length. Qed.
Lemma rename_lists_length f L : length (rename_lists f L) = length L.
Proof. unfold rename_lists. by rewrite fmap_length. Qed.
Lemma rename_lists_lookup f L i : rename_lists f L !! i = rename_list f <$> (L !! i).
Proof. unfold rename_lists. by rewrite list_lookup_fmap. Qed.
Lemma rename_list_lookup f l i : rename_list f l !! i = f <$> (l !! i).
Proof. unfold rename_list. by rewrite list_lookup_fmap. Qed.
Lemma rename_lists_insert f L i l : rename_lists f (<[i := l]> L) = <[i := rename_list f l]> (rename_lists f L).
Proof. unfold rename_lists. by rewrite list_fmap_insert. Qed.
Lemma rename_lists_remove f L i : rename_lists f (remove_at i L) = remove_at i (rename_lists f L).
Proof. apply remove_at_fmap. Qed.
Lemma rename_lists_insert_at f L i l : rename_lists f (insert_at i l L) = insert_at i (rename_list f l) (rename_lists f L).
Proof. apply insert_at_fmap. Qed.
Lemma rename_lists_app f L1 L2 : rename_lists f (L1 ++ L2) = rename_lists f L1 ++ rename_lists f L2.
Proof. apply fmap_app. Qed.
Lemma rename_list_app f l1 l2 : rename_list f (l1 ++ l2) = rename_list f l1 ++ rename_list f l2.
Proof. apply fmap_app. Qed.
Lemma rename_lists_reverse f L : rename_lists f (reverse L) = reverse (rename_lists f L).
Proof. apply fmap_reverse. Qed.
Lemma rename_list_reverse f L : rename_list f (reverse L) = reverse (rename_list f L).
Proof. apply fmap_reverse. Qed.
Lemma rename_shape f L : length <$> rename_lists f L = length <$> L.
Proof. unfold rename_lists. rewrite <-list_fmap_compose. apply list_fmap_ext. intros ? l _. simpl. apply rename_list_length. Qed.
Lemma rename_list_elem f g x l : relabelling f g -> f x ∈ rename_list f l <-> x ∈ l.
Proof.
  intros Hf. pose proof (rl_inj f g Hf) as Hi. unfold rename_list. rewrite elem_of_list_fmap. split.
  - intros (y & E & Hy). by apply Hi in E as ->.
  - intros Hx. by exists x.
Qed.

(** Duplicates and positions. *)
Lemma rename_remove_dups f g l : relabelling f g -> remove_dups (rename_list f l) = rename_list f (remove_dups l).
Proof.
  intros Hf. induction l as [|x l IH]; [done|]. unfold rename_list in *. cbn [fmap list_fmap remove_dups].
  change (list_fmap lab lab f l) with (f <$> l).
  destruct (decide_rel (∈) x l) as [Hx|Hx].
  - destruct (decide_rel (∈) (f x) (f <$> l)) as [_|Hn]; [done|]. exfalso. apply Hn. by apply (proj2 (rename_list_elem f g x l Hf)).
  - destruct (decide_rel (∈) (f x) (f <$> l)) as [Hn|_]; [by apply (proj1 (rename_list_elem f g x l Hf)) in Hn|]. by rewrite IH.
Qed.
Lemma rename_nodup f g l : relabelling f g -> py_nodup (rename_list f l) = py_nodup l.
Proof. intros Hf. unfold py_nodup. by rewrite (rename_remove_dups f g), !rename_list_length. Qed.
Lemma rename_index_of f g x l : relabelling f g -> index_of (f x) (rename_list f l) = index_of x l.
Proof.
  intros Hf. pose proof (rl_inj f g Hf) as Hi. induction l as [|y l IH]; [done|]. cbn. change (f <$> l) with (rename_list f l).
  destruct (decide (x = y)) as [->|Hn].
  - by rewrite decide_True.
  - rewrite decide_False; [by rewrite IH|]. intros E. by apply Hi in E.
Qed.
Lemma rename_filter_in f g l1 l2 :
  relabelling f g -> filter (fun x => x ∈ rename_list f l2) (rename_list f l1) = rename_list f (filter (fun x => x ∈ l2) l1).
Proof.
  intros Hf. unfold rename_list at 2 3. induction l1 as [|x l1 IH]; [done|]. rewrite fmap_cons, !filter_cons.
  destruct (decide (x ∈ l2)) as [Hx|Hx].
  - rewrite decide_True by (by apply (rename_list_elem f g)). by rewrite IH.
  - rewrite decide_False; [by rewrite IH|]. by rewrite (rename_list_elem f g).
Qed.

(** Order. *)
Lemma rename_comparable f g x y : relabelling f g -> comparable (f x) (f y) = comparable x y.
Proof.
  intros Hf. destruct (comparable x y) eqn:E.
  - apply comparable_spec. apply (rl_orderable f g Hf). by apply comparable_spec.
  - destruct (comparable (f x) (f y)) eqn:E'; [|done]. rewrite comparable_spec, (rl_orderable f g Hf), <-comparable_spec in E'. congruence.
Qed.
Lemma rename_eq f g x y : relabelling f g -> f x = f y <-> x = y.
Proof. intros Hf. split; [apply (rl_inj f g Hf)|by intros ->]. Qed.
Lemma rename_lt f g x y : relabelling f g -> x = y \/ comparable x y = true -> lab_lt (f x) (f y) <-> lab_lt x y.
Proof.
  intros Hf [->|Hc]; [|apply (rl_order f g Hf); by apply comparable_spec].
  unfold lab_lt. assert (forall z, lab_cmp z z = Eq) as E by (intros z; by apply lab_cmp_eq). by rewrite !E.
Qed.
Lemma rename_le f g x y : relabelling f g -> x = y \/ comparable x y = true -> lab_le (f x) (f y) <-> lab_le x y.
Proof.
  intros Hf Hc. assert (forall a b, lab_le a b <-> lab_lt a b \/ a = b) as E.
  { intros a b. rewrite lab_lt_le. destruct (decide (a = b)) as [->|]; [|naive_solver]. split; [by right|]. intros _.
    unfold lab_le. assert (lab_cmp b b = Eq) as -> by (by apply lab_cmp_eq). done. }
  rewrite !E, (rename_lt f g) by done. by rewrite (rename_eq f g).
Qed.
Lemma bool_decide_iff (P Q : Prop) `{Decision P, Decision Q} : (P <-> Q) -> bool_decide P = bool_decide Q.
Proof. intros HPQ. by apply bool_decide_ext. Qed.
Lemma rename_leR f g x y : relabelling f g -> lab_leR (f x) (f y) = lab_leR x y.
Proof.
  intros Hf. unfold lab_leR. rewrite (rename_comparable f g) by done. rewrite (bool_decide_iff (f x = f y) (x = y)) by (by apply (rename_eq f g)).
  destruct (bool_decide (x = y) || comparable x y) eqn:E; [|done]. f_equal. apply bool_decide_iff, (rename_le f g); [done|].
  apply orb_true_iff in E as [E|E]; [left|by right]. by apply bool_decide_eq_true in E.
Qed.
Lemma rename_ltR f g x y : relabelling f g -> lab_ltR (f x) (f y) = lab_ltR x y.
Proof.
  intros Hf. unfold lab_ltR. rewrite (rename_comparable f g) by done. rewrite (bool_decide_iff (f x = f y) (x = y)) by (by apply (rename_eq f g)).
  destruct (bool_decide (x = y) || comparable x y) eqn:E; [|done]. f_equal. apply bool_decide_iff, (rename_lt f g); [done|].
  apply orb_true_iff in E as [E|E]; [left|by right]. by apply bool_decide_eq_true in E.
Qed.
Lemma rename_sortable f g l : relabelling f g -> sortable (rename_list f l) = sortable l.
Proof.
  intros Hf. destruct (sortable l) eqn:E.
  - apply sortable_spec. rewrite sortable_spec in E. intros a b Ha Hb. unfold rename_list in Ha, Hb.
    apply elem_of_list_fmap in Ha as (x & -> & Hx). apply elem_of_list_fmap in Hb as (y & -> & Hy).
    rewrite (rename_comparable f g), (rename_eq f g) by done. by apply E.
  - destruct (sortable (rename_list f l)) eqn:E'; [|done]. exfalso. apply not_true_iff_false in E. apply E.
    apply sortable_spec. rewrite sortable_spec in E'. intros a b Ha Hb.
    specialize (E' (f a) (f b)). rewrite !(rename_list_elem f g), (rename_comparable f g), (rename_eq f g) in E' by done. by apply E'.
Qed.
Lemma rename_sorted f g l : relabelling f g -> py_sorted (rename_list f l) = rename_list f <$> py_sorted l.
Proof.
  intros Hf. unfold py_sorted. rewrite (rename_sortable f g) by done. destruct (sortable l) eqn:E; [|done]. cbn [fmap res_fmap]. f_equal.
  apply (StronglySorted_unique lab_le).
  - apply StronglySorted_merge_sort; apply _.
  - rewrite sortable_spec in E.
    assert (forall a b, a ∈ merge_sort lab_le l -> b ∈ merge_sort lab_le l -> a = b \/ comparable a b = true) as Hc.
    { intros a b. rewrite !merge_sort_Permutation. apply E. }
    assert (StronglySorted lab_le (merge_sort lab_le l)) as Hs by (apply StronglySorted_merge_sort; apply _).
    revert Hs Hc. generalize (merge_sort lab_le l). clear E. intros s. unfold rename_list. induction s as [|a s IH]; intros Hs Hc; [constructor|].
    apply StronglySorted_inv in Hs as [Hs Ha]. rewrite fmap_cons. constructor.
    + apply IH; [done|]. intros x y Hx Hy. apply Hc; by right.
    + apply Forall_fmap. rewrite Forall_forall in *. intros b Hb. simpl. apply (rename_le f g); [done| |by apply Ha].
      apply Hc; [by left|by right].
  - rewrite merge_sort_Permutation. unfold rename_list. by rewrite merge_sort_Permutation.
Qed.
Lemma rename_sorted_set f g l : relabelling f g -> sorted_set (rename_list f l) = rename_list f <$> sorted_set l.
Proof. intros Hf. unfold sorted_set. by rewrite (rename_remove_dups f g), (rename_sorted f g). Qed.
