(** Python's label order is a total order; facts about sorting. *)
From Verif Require Export Lab BaseFacts.
From stdpp Require Export sorting.
From Coq Require Import Ascii.

Lemma zlist_cmp_eq l1 l2 : zlist_cmp l1 l2 = Eq <-> l1 = l2.
Proof.
  revert l2; induction l1 as [|a l1 IH]; intros [|b l2]; simpl; try (split; congruence).
  destruct (Z.compare_spec a b); split; intros H'; try congruence; try lia.
  - apply IH in H'. congruence.
  - injection H' as _ <-. by apply IH.
  - injection H' as -> <-. lia.
  - injection H' as -> <-. lia.
Qed.
Lemma zlist_cmp_opp l1 l2 : zlist_cmp l2 l1 = CompOpp (zlist_cmp l1 l2).
Proof.
  revert l2; induction l1 as [|a l1 IH]; intros [|b l2]; simpl; try done.
  rewrite (Z.compare_antisym a b). destruct (a ?= b)%Z; simpl; auto.
Qed.
Lemma zlist_cmp_trans l1 l2 l3 :
  zlist_cmp l1 l2 = Lt -> zlist_cmp l2 l3 = Lt -> zlist_cmp l1 l3 = Lt.
Proof.
  revert l2 l3; induction l1 as [|a l1 IH]; intros [|b l2] [|c l3]; simpl; try done.
  destruct (a ?= b)%Z eqn:E1, (b ?= c)%Z eqn:E2; try done; intros H1 H2;
    rewrite ?Z.compare_eq_iff, ?Z.compare_lt_iff in *; subst.
  - rewrite Z.compare_refl. eauto.
  - apply Z.compare_lt_iff in E2. by rewrite E2.
  - apply Z.compare_lt_iff in E1. by rewrite E1.
  - assert (a ?= c = Lt)%Z as -> by (apply Z.compare_lt_iff; lia). done.
Qed.

(** Lexicographic order on tuples. *)
Fixpoint lablist_cmp (l1 l2 : list lab) : comparison :=
  match l1, l2 with
  | [], [] => Eq
  | [], _ :: _ => Lt
  | _ :: _, [] => Gt
  | x :: l1', y :: l2' => match lab_cmp x y with Eq => lablist_cmp l1' l2' | c => c end
  end.
Lemma lab_cmp_tup l1 l2 : lab_cmp (LTup l1) (LTup l2) = lablist_cmp l1 l2.
Proof.
  simpl. revert l2. induction l1 as [|x l1 IH]; intros [|y l2]; simpl; try done.
Qed.

Definition is_tup (a : lab) : bool := match a with LTup _ => true | _ => false end.
Lemma lab_cmp_key a b : is_tup a = false \/ is_tup b = false -> lab_cmp a b = zlist_cmp (lab_key a) (lab_key b).
Proof. destruct a, b; simpl; intros []; done. Qed.

Lemma ascii_list_inj s1 s2 :
  (fun c => Z.of_nat (nat_of_ascii c)) <$> list_ascii_of_string s1 =
  (fun c => Z.of_nat (nat_of_ascii c)) <$> list_ascii_of_string s2 -> s1 = s2.
Proof.
  intros H. apply fmap_inj in H.
  - rewrite <-(string_of_list_ascii_of_string s1), <-(string_of_list_ascii_of_string s2). by f_equal.
  - intros x y Hxy. assert (nat_of_ascii x = nat_of_ascii y) by lia.
    rewrite <-(ascii_nat_embedding x), <-(ascii_nat_embedding y). by f_equal.
Qed.
Lemma lab_key_inj a b : is_tup a = false -> lab_key a = lab_key b -> a = b.
Proof.
  destruct a as [|s| |? ? ? ? tz|? ? ? ? ? ? ? tz|], b as [|s'| |? ? ? ? tz'|? ? ? ? ? ? ? tz'|];
    simpl; try done; intros _ H; try (injection H; intros; subst; done).
  - injection H as H. f_equal. by apply ascii_list_inj.
  - injection H; intros. destruct tz, tz'; simplify_eq/=; done.
  - injection H; intros. destruct tz, tz'; simplify_eq/=; done.
Qed.

Lemma lab_cmp_eq a b : lab_cmp a b = Eq <-> a = b.
Proof.
  revert b. induction a using lab_ind'; intros b.
  1-5: rewrite lab_cmp_key by (left; done); rewrite zlist_cmp_eq; split; [by apply lab_key_inj|congruence].
  destruct b as [| | | | |l2].
  1-5: rewrite lab_cmp_key by (right; done); rewrite zlist_cmp_eq; split; [intros ?; symmetry; by apply lab_key_inj|congruence].
  rewrite lab_cmp_tup. trans (l = l2); [|split; congruence].
  revert l2. induction H as [|x l Hx Hl IH]; intros [|y l2]; simpl; try (split; congruence).
  destruct (lab_cmp x y) eqn:E; split; intros H'; try congruence.
  - apply Hx in E. apply IH in H'. congruence.
  - injection H' as -> ->. by apply IH.
  - injection H' as -> ->. assert (lab_cmp y y = Eq) by (by apply Hx). congruence.
  - injection H' as -> ->. assert (lab_cmp y y = Eq) by (by apply Hx). congruence.
Qed.
Lemma lab_cmp_opp a b : lab_cmp b a = CompOpp (lab_cmp a b).
Proof.
  revert b. induction a using lab_ind'; intros b.
  1-5: rewrite (lab_cmp_key b) by (right; done); rewrite lab_cmp_key by (left; done); apply zlist_cmp_opp.
  destruct b as [| | | | |l2].
  1-5: rewrite (lab_cmp_key (LTup _)) by (right; done); rewrite lab_cmp_key by (left; done); apply zlist_cmp_opp.
  rewrite !lab_cmp_tup. revert l2.
  induction H as [|x l Hx Hl IH]; intros [|y l2]; simpl; try done.
  rewrite Hx. destruct (lab_cmp x y); simpl; auto.
Qed.
Lemma lab_cmp_trans_key a b c : is_tup a = false ->
  lab_cmp a b = Lt -> lab_cmp b c = Lt -> lab_cmp a c = Lt.
Proof.
  intros Ha. rewrite (lab_cmp_key a b), (lab_cmp_key a c) by (by left). intros H1 H2.
  destruct (is_tup b && is_tup c) eqn:E.
  - destruct b, c; try done.
  - rewrite lab_cmp_key in H2 by (by apply andb_false_iff in E). by eapply zlist_cmp_trans.
Qed.
Lemma lab_cmp_trans a b c : lab_cmp a b = Lt -> lab_cmp b c = Lt -> lab_cmp a c = Lt.
Proof.
  revert b c. induction a using lab_ind'; intros b c.
  1-5: by apply lab_cmp_trans_key.
  destruct b as [| | | | |l2].
  1-5: rewrite lab_cmp_key by (right; done); simpl; discriminate.
  destruct c as [| | | | |l3].
  1-5: intros _; rewrite lab_cmp_key by (right; done); simpl; discriminate.
  rewrite !lab_cmp_tup. revert l2 l3.
  induction H as [|x l Hx Hl IH]; intros [|y l2] [|z l3]; simpl; try done.
  destruct (lab_cmp x y) eqn:E1; [apply lab_cmp_eq in E1 as ->| |done].
  - destruct (lab_cmp y z) eqn:E2; [|done|done]. apply IH.
  - intros _. destruct (lab_cmp y z) eqn:E2; [apply lab_cmp_eq in E2 as ->| |done].
    + by rewrite E1.
    + intros _. by rewrite (Hx _ _ E1 E2).
Qed.

Global Instance lab_le_refl : Reflexive lab_le.
Proof. intros a. unfold lab_le. assert (lab_cmp a a = Eq) as -> by (by apply lab_cmp_eq). done. Qed.
Global Instance lab_le_trans : Transitive lab_le.
Proof.
  unfold lab_le. intros a b c H1 H2.
  destruct (lab_cmp a b) eqn:E1; [apply lab_cmp_eq in E1 as ->; done| |done].
  destruct (lab_cmp b c) eqn:E2; [apply lab_cmp_eq in E2 as ->; congruence| |done].
  by rewrite (lab_cmp_trans _ _ _ E1 E2).
Qed.
Global Instance lab_le_antisymm : AntiSymm (=) lab_le.
Proof.
  unfold lab_le. intros a b H1 H2. rewrite lab_cmp_opp in H2.
  destruct (lab_cmp a b) eqn:E; simpl in *; try done. by apply lab_cmp_eq.
Qed.
Global Instance lab_le_total : Total lab_le.
Proof. unfold lab_le. intros a b. rewrite (lab_cmp_opp a b). destruct (lab_cmp a b); simpl; naive_solver. Qed.

Lemma lab_lt_le a b : lab_lt a b <-> lab_le a b /\ a <> b.
Proof.
  unfold lab_lt, lab_le. split.
  - intros H. split; [congruence|]. intros ->. assert (lab_cmp b b = Eq) by (by apply lab_cmp_eq). congruence.
  - intros [H1 H2]. destruct (lab_cmp a b) eqn:E; try done. by apply lab_cmp_eq in E.
Qed.
Lemma lab_le_lt a b : lab_le a b <-> ~ lab_lt b a.
Proof. unfold lab_le, lab_lt. rewrite (lab_cmp_opp a b). destruct (lab_cmp a b); simpl; naive_solver. Qed.
Global Instance lab_lt_trans : Transitive lab_lt.
Proof. unfold lab_lt. intros a b c. apply lab_cmp_trans. Qed.
Lemma lab_lt_irrefl a : ~ lab_lt a a.
Proof. rewrite lab_lt_le. naive_solver. Qed.

(** * Sorting *)
Lemma py_sorted_ok l l' :
  py_sorted l = Ok l' -> sortable l = true /\ StronglySorted lab_le l' /\ l' ≡ₚ l.
Proof.
  unfold py_sorted. destruct (sortable l) eqn:E; [|done]. intros [= <-].
  split; [done|]. split; [apply (StronglySorted_merge_sort lab_le)|apply merge_sort_Permutation].
Qed.
Lemma sorted_lt_nodup l : StronglySorted lab_le l -> NoDup l -> StronglySorted lab_lt l.
Proof.
  induction 1 as [|x l Hs IH Hx]; intros Hnd; constructor.
  - apply IH. by apply NoDup_cons in Hnd as [].
  - apply NoDup_cons in Hnd as [Hni _]. rewrite Forall_forall in *. intros y Hy.
    apply lab_lt_le. split; [auto|]. naive_solver.
Qed.
Lemma lt_sorted_nodup l : StronglySorted lab_lt l -> NoDup l.
Proof.
  induction 1 as [|x l Hs IH Hx]; constructor; [|done].
  intros Hin. rewrite Forall_forall in Hx. by apply (lab_lt_irrefl x), Hx.
Qed.
Lemma lt_sorted_le l : StronglySorted lab_lt l -> StronglySorted lab_le l.
Proof.
  induction 1 as [|x l Hs IH Hx]; constructor; [done|].
  eapply Forall_impl; [done|]. intros y [? _]%lab_lt_le. done.
Qed.
(** A strictly increasing list is determined by its elements. *)
Lemma lt_sorted_unique l1 l2 :
  StronglySorted lab_lt l1 -> StronglySorted lab_lt l2 -> (forall x, x ∈ l1 <-> x ∈ l2) -> l1 = l2.
Proof.
  intros H1 H2 H. apply (StronglySorted_unique lab_le); [by apply lt_sorted_le..|].
  apply NoDup_Permutation; [by apply lt_sorted_nodup..|done].
Qed.
Lemma sorted_unique l1 l2 :
  StronglySorted lab_le l1 -> StronglySorted lab_le l2 -> l1 ≡ₚ l2 -> l1 = l2.
Proof. intros. by apply (StronglySorted_unique lab_le). Qed.

Lemma sorted_set_ok l l' :
  sorted_set l = Ok l' -> StronglySorted lab_lt l' /\ (forall x, x ∈ l' <-> x ∈ l).
Proof.
  intros (_ & Hs & Hp)%py_sorted_ok. split.
  - apply sorted_lt_nodup; [done|]. rewrite Hp. apply NoDup_remove_dups.
  - intros x. rewrite Hp. apply elem_of_remove_dups.
Qed.
Lemma py_sorted_nodup l l' : py_sorted l = Ok l' -> NoDup l -> NoDup l'.
Proof. intros (_ & _ & Hp)%py_sorted_ok ?. by rewrite Hp. Qed.
Lemma py_sorted_length l l' : py_sorted l = Ok l' -> length l' = length l.
Proof. intros (_ & _ & Hp)%py_sorted_ok. by rewrite Hp. Qed.

Lemma sortable_spec l :
  sortable l = true <-> forall a b, a ∈ l -> b ∈ l -> a = b \/ comparable a b = true.
Proof.
  unfold sortable. rewrite forallb_forall. setoid_rewrite forallb_forall.
  setoid_rewrite <-elem_of_list_In. setoid_rewrite orb_true_iff. setoid_rewrite bool_decide_eq_true. naive_solver.
Qed.
(** Sorting succeeds on any rearrangement or sublist of a sortable list. *)
Lemma sortable_incl l l' : (forall x, x ∈ l' -> x ∈ l) -> sortable l = true -> sortable l' = true.
Proof. rewrite !sortable_spec. naive_solver. Qed.
Lemma py_sorted_perm l l' : l ≡ₚ l' -> py_sorted l = py_sorted l'.
Proof.
  intros Hp. unfold py_sorted.
  assert (sortable l = sortable l') as ->.
  { apply eq_true_iff_eq. split; apply sortable_incl; intros x; by rewrite Hp. }
  destruct (sortable l'); [|done]. f_equal.
  apply sorted_unique; [apply (StronglySorted_merge_sort lab_le)..|]. by rewrite !merge_sort_Permutation.
Qed.
Lemma py_sorted_sorted l : StronglySorted lab_le l -> sortable l = true -> py_sorted l = Ok l.
Proof.
  intros Hs Hl. unfold py_sorted. rewrite Hl. f_equal.
  apply sorted_unique; [apply (StronglySorted_merge_sort lab_le)|done|]. apply merge_sort_Permutation.
Qed.
Lemma sorted_set_ext l l' : (forall x, x ∈ l <-> x ∈ l') -> sorted_set l = sorted_set l'.
Proof.
  intros H. apply py_sorted_perm. apply NoDup_Permutation; [apply NoDup_remove_dups..|].
  intros x. rewrite !elem_of_remove_dups. done.
Qed.
