(** Algebra and order of extended numbers. *)
From Verif Require Export Numeric OpsFacts.
From Coq Require Import Sorted.

Lemma Qc_ltb_lt a b : Qc_ltb a b = true <-> (a < b)%Qc.
Proof.
  unfold Qc_ltb. rewrite Qclt_alt. by destruct (a ?= b)%Qc.
Qed.
Lemma Qc_ltb_ge a b : Qc_ltb a b = false <-> (b <= a)%Qc.
Proof.
  rewrite <-not_true_iff_false, Qc_ltb_lt. split; [apply Qcnot_lt_le|intros H1 H2; by apply (Qclt_not_le a b)].
Qed.
Lemma Qc_cases q : (0 < q)%Qc \/ q = 0%Qc \/ (q < 0)%Qc.
Proof. destruct (Qc_dec 0 q) as [[?|?]|<-]; auto. Qed.
Lemma Qc_mul_pos p q : (0 < p)%Qc -> (0 < q)%Qc -> (0 < p * q)%Qc.
Proof. intros Hp Hq. rewrite <-(Qcmult_0_l q). by apply Qcmult_lt_compat_r. Qed.
Lemma Qc_mul_neg p q : (0 < p)%Qc -> (q < 0)%Qc -> (p * q < 0)%Qc.
Proof. intros Hp Hq. rewrite <-(Qcmult_0_l p), (Qcmult_comm p q). by apply Qcmult_lt_compat_r. Qed.
Lemma Qc_neg_lt q : (q < 0)%Qc -> (0 < - q)%Qc.
Proof. intros H. apply Qclt_minus_iff in H. by rewrite Qcplus_0_l in H. Qed.
Lemma Qc_mul_neg_neg p q : (p < 0)%Qc -> (q < 0)%Qc -> (0 < p * q)%Qc.
Proof.
  intros Hp Hq. replace (p * q)%Qc with (- p * - q)%Qc by ring. apply Qc_mul_pos; by apply Qc_neg_lt.
Qed.
Lemma inf_sign_pos q a b : (0 < q)%Qc -> inf_sign q a b = a.
Proof. intros H. unfold inf_sign. by rewrite (proj2 (Qc_ltb_lt _ _) H). Qed.
Lemma inf_sign_neg q a b : (q < 0)%Qc -> inf_sign q a b = b.
Proof.
  intros H. unfold inf_sign. rewrite (proj2 (Qc_ltb_ge _ _)) by (by apply Qclt_le_weak).
  by rewrite (proj2 (Qc_ltb_lt _ _) H).
Qed.
Lemma inf_sign_zero a b : inf_sign 0 a b = NaN.
Proof. done. Qed.

Lemma num_add_comm a b : num_add a b = num_add b a.
Proof. destruct a, b; simpl; try done. f_equal. ring. Qed.
Lemma num_add_assoc a b c : num_add a (num_add b c) = num_add (num_add a b) c.
Proof. destruct a, b, c; simpl; try done. f_equal. ring. Qed.
Lemma num_add_0_l a : num_add (num_of_Z 0) a = a.
Proof. destruct a; simpl; try done. f_equal. change (0 + q = q)%Qc. ring. Qed.
Lemma num_add_0_r a : num_add a (num_of_Z 0) = a.
Proof. rewrite num_add_comm. apply num_add_0_l. Qed.

Lemma num_mul_comm a b : num_mul a b = num_mul b a.
Proof. destruct a, b; simpl; try done. f_equal. ring. Qed.
Lemma num_mul_1_l a : num_mul (num_of_Z 1) a = a.
Proof. destruct a; simpl; try done. f_equal. change (1 * q = q)%Qc. ring. Qed.
Lemma num_mul_1_r a : num_mul a (num_of_Z 1) = a.
Proof. rewrite num_mul_comm. apply num_mul_1_l. Qed.
Ltac qsign := repeat first
  [ rewrite inf_sign_zero
  | rewrite inf_sign_pos by first [assumption|apply Qc_mul_pos; assumption|apply Qc_mul_neg_neg; assumption]
  | rewrite inf_sign_neg by first [assumption|apply Qc_mul_neg; assumption|rewrite Qcmult_comm; apply Qc_mul_neg; assumption] ].
Lemma num_mul_assoc a b c : num_mul a (num_mul b c) = num_mul (num_mul a b) c.
Proof.
  destruct a as [p| | |], b as [q| | |], c as [r| | |]; simpl; try done; try (f_equal; ring).
  all: try (destruct (Qc_cases p) as [?|[->|?]]).
  all: try (destruct (Qc_cases q) as [?|[->|?]]).
  all: try (destruct (Qc_cases r) as [?|[->|?]]).
  all: rewrite ?Qcmult_0_l, ?Qcmult_0_r; qsign; simpl; qsign; done.
Qed.

Lemma fold_total ns a : fold_left num_add ns a = num_add a (num_total ns).
Proof.
  revert a. induction ns as [|n ns IH]; intros a; simpl; [by rewrite num_add_0_r|].
  rewrite IH. by rewrite num_add_assoc.
Qed.
Lemma fold_product ns a : fold_left num_mul ns a = num_mul a (num_product ns).
Proof.
  revert a. induction ns as [|n ns IH]; intros a; simpl; [by rewrite num_mul_1_r|].
  rewrite IH. by rewrite num_mul_assoc.
Qed.
Lemma total_app l1 l2 : num_total (l1 ++ l2) = num_add (num_total l1) (num_total l2).
Proof. induction l1 as [|n l1 IH]; [symmetry; apply num_add_0_l|]. simpl. by rewrite IH, num_add_assoc. Qed.
Lemma product_app l1 l2 : num_product (l1 ++ l2) = num_mul (num_product l1) (num_product l2).
Proof. induction l1 as [|n l1 IH]; [symmetry; apply num_mul_1_l|]. simpl. by rewrite IH, num_mul_assoc. Qed.

(** * Order *)
Lemma num_ltb_lt a b : num_ltb a b = true <-> num_lt a b.
Proof. destruct a, b; simpl; try done; apply Qc_ltb_lt. Qed.
Lemma num_eqb_same a b : num_eqb a b = true <-> num_same a b.
Proof.
  unfold num_eqb, num_same. destruct a, b; rewrite ?bool_decide_eq_true; naive_solver.
Qed.
Lemma num_leb_le a b : num_leb a b = true <-> num_le a b.
Proof. unfold num_leb, num_le. by rewrite orb_true_iff, num_ltb_lt, num_eqb_same. Qed.

Lemma num_lt_irrefl a : ~ num_lt a a.
Proof. destruct a as [q| | |]; simpl; auto. intros H. by apply (Qclt_not_eq q q). Qed.
Lemma num_lt_trans a b c : num_lt a b -> num_lt b c -> num_lt a c.
Proof. destruct a, b, c; simpl; try done. apply Qclt_trans. Qed.
Lemma num_le_refl a : a <> NaN -> num_le a a.
Proof. by right. Qed.
Lemma num_le_trans a b c : num_le a b -> num_le b c -> num_le a c.
Proof. intros [H1|[-> _]] [H2|[<- ?]]; [left; by eapply num_lt_trans|by left|by left|by right]. Qed.
Lemma num_trichotomy a b : a <> NaN -> b <> NaN -> num_lt a b \/ a = b \/ num_lt b a.
Proof.
  intros Ha Hb. destruct a as [p| | |], b as [q| | |]; simpl; try done; auto.
  destruct (Qc_dec p q) as [[?|?]|<-]; auto.
Qed.
Lemma num_le_total a b : a <> NaN -> b <> NaN -> num_le a b \/ num_lt b a.
Proof. intros Ha Hb. destruct (num_trichotomy a b Ha Hb) as [?|[->|?]]; [left; by left|left; by right|by right]. Qed.
Lemma num_lt_nan a b : num_lt a b -> a <> NaN /\ b <> NaN.
Proof. destruct a, b; simpl; try done. Qed.
Lemma num_le_nan a b : num_le a b -> a <> NaN /\ b <> NaN.
Proof. intros [?|[-> ?]]; [by apply num_lt_nan|done]. Qed.
Lemma num_lt_not_le a b : num_lt a b -> ~ num_le b a.
Proof.
  intros H [H'|[-> _]]; [|by eapply num_lt_irrefl]. by eapply num_lt_irrefl, num_lt_trans.
Qed.

Lemma num_of_Z_lt a b : num_lt (num_of_Z a) (num_of_Z b) <-> (a < b)%Z.
Proof. simpl. unfold Qc_of_Z. simpl. unfold Qclt, Qlt. simpl. lia. Qed.
Lemma num_of_Z_inj a b : num_of_Z a = num_of_Z b <-> a = b.
Proof. unfold num_of_Z. split; [|by intros ->]. intros H. apply Z2Qc_inj_iff. congruence. Qed.
Lemma num_of_Z_le a b : num_le (num_of_Z a) (num_of_Z b) <-> (a <= b)%Z.
Proof.
  unfold num_le, num_same. rewrite num_of_Z_lt, num_of_Z_inj. split; [lia|].
  intros. destruct (decide (a = b)); [right; done|left; lia].
Qed.
Lemma num_add_Z a b : num_add (num_of_Z a) (num_of_Z b) = num_of_Z (a + b).
Proof. unfold num_of_Z. simpl. by rewrite Z2Qc_inj_add. Qed.
Lemma num_mul_Z a b : num_mul (num_of_Z a) (num_of_Z b) = num_of_Z (a * b).
Proof. unfold num_of_Z. simpl. by rewrite Z2Qc_inj_mul. Qed.
Lemma num_of_Z_nan a : num_of_Z a <> NaN.
Proof. done. Qed.

Lemma fold_add_acc zs a : fold_left Z.add zs a = (a + fold_left Z.add zs 0)%Z.
Proof. revert a. induction zs as [|z zs IH]; intros a; cbn [fold_left]; [lia|]. rewrite IH, (IH (0 + z)%Z). lia. Qed.
Lemma fold_mul_acc zs a : fold_left Z.mul zs a = (a * fold_left Z.mul zs 1)%Z.
Proof. revert a. induction zs as [|z zs IH]; intros a; cbn [fold_left]; [lia|]. rewrite IH, (IH (1 * z)%Z). lia. Qed.
Lemma total_Z zs : num_total (num_of_Z <$> zs) = num_of_Z (fold_left Z.add zs 0%Z).
Proof.
  induction zs as [|z zs IH]; [done|]. cbn [fold_left]. rewrite fold_add_acc, Z.add_0_l.
  rewrite fmap_cons. change (num_total (?a :: ?l)) with (num_add a (num_total l)). by rewrite IH, num_add_Z.
Qed.
Lemma product_Z zs : num_product (num_of_Z <$> zs) = num_of_Z (fold_left Z.mul zs 1%Z).
Proof.
  induction zs as [|z zs IH]; [done|]. cbn [fold_left]. rewrite fold_mul_acc, Z.mul_1_l.
  rewrite fmap_cons. change (num_product (?a :: ?l)) with (num_mul a (num_product l)). by rewrite IH, num_mul_Z.
Qed.

(** * Sorting *)
Lemma num_insert_perm x l : Permutation (num_insert x l) (x :: l).
Proof.
  induction l as [|y l IH]; simpl; [done|]. destruct (num_leb x y); [done|].
  rewrite IH. apply Permutation_swap.
Qed.
Lemma num_sort_perm l : Permutation (num_sort l) l.
Proof. induction l as [|x l IH]; simpl; [done|]. by rewrite num_insert_perm, IH. Qed.
Lemma num_insert_sorted x l :
  x <> NaN -> Forall (fun n => n <> NaN) l -> StronglySorted num_le l -> StronglySorted num_le (num_insert x l).
Proof.
  intros Hx Hl Hs. induction Hs as [|y l Hs IH Hy]; simpl; [repeat constructor|].
  apply Forall_cons in Hl as [Hyn Hl]. destruct (num_leb x y) eqn:E.
  - apply num_leb_le in E. constructor; [by constructor|]. constructor; [done|].
    eapply Forall_impl; [exact Hy|]. intros z. by apply num_le_trans.
  - assert (num_le y x) as Hyx.
    { destruct (num_le_total x y Hx Hyn) as [H|H]; [apply num_leb_le in H; congruence|by left]. }
    constructor; [by apply IH|]. rewrite num_insert_perm. by constructor.
Qed.
Lemma num_sort_sorted l : Forall (fun n => n <> NaN) l -> StronglySorted num_le (num_sort l).
Proof.
  induction 1 as [|x l Hx Hl IH]; simpl; [constructor|]. apply num_insert_sorted; [done| |done].
  by rewrite num_sort_perm.
Qed.
