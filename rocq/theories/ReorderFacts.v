(** Reductions do not depend on the order of the labels. *)
From Verif Require Export CommuteMain.

(** * Lists *)
Definition order_free {A B} (f : list A -> B) : Prop := forall l l', l ≡ₚ l' -> f l = f l'.
(** Every element is changed with the help of an order-free summary. *)
Definition pointwise {A B} (f : list A -> list B) (g : list A -> A -> B) : Prop :=
  (forall x, order_free (fun l => g l x)) /\ forall l, f l = g l <$> l.

Lemma omap_perm {A B} (f : A -> option B) l l' : l ≡ₚ l' -> omap f l ≡ₚ omap f l'.
Proof.
  induction 1 as [|x l l' _ IH|x y l|l1 l2 l3 _ IH1 _ IH2]; simpl; [done| | |by etrans].
  - destruct (f x); [by constructor|done].
  - destruct (f x), (f y); try done. by constructor.
Qed.
Lemma filter_perm {A} (P : A -> Prop) `{!forall x, Decision (P x)} l l' : l ≡ₚ l' -> filter P l ≡ₚ filter P l'.
Proof. intros Hp. by rewrite Hp. Qed.
Lemma fold_left_perm {A B} (f : B -> A -> B) l l' b : (forall b x y, f (f b x) y = f (f b y) x) -> l ≡ₚ l' -> fold_left f l b = fold_left f l' b.
Proof.
  intros Hf Hp. revert b. induction Hp as [|x l l' _ IH|x y l|l1 l2 l3 _ IH1 _ IH2]; intros b; simpl; [done|apply IH|by rewrite Hf|by rewrite IH1].
Qed.
Lemma add_swap b x y : num_add (num_add b x) y = num_add (num_add b y) x.
Proof. rewrite <-!num_add_assoc. f_equal. apply num_add_comm. Qed.
Lemma mul_swap b x y : num_mul (num_mul b x) y = num_mul (num_mul b y) x.
Proof. rewrite <-!num_mul_assoc. f_equal. apply num_mul_comm. Qed.
Lemma forallb_perm {A} (p : A -> bool) l l' : l ≡ₚ l' -> forallb p l = forallb p l'.
Proof.
  induction 1 as [|x l l' _ IH|x y l|l1 l2 l3 _ IH1 _ IH2]; simpl; [done|by rewrite IH| |by etrans].
  destruct (p x), (p y); done.
Qed.
Lemma existsb_perm {A} (p : A -> bool) l l' : l ≡ₚ l' -> existsb p l = existsb p l'.
Proof.
  induction 1 as [|x l l' _ IH|x y l|l1 l2 l3 _ IH1 _ IH2]; simpl; [done|by rewrite IH| |by etrans].
  destruct (p x), (p y); done.
Qed.
Lemma num_le_antisym a b : num_le a b -> num_le b a -> a = b.
Proof.
  intros H1 H2. destruct (num_le_nan _ _ H1) as [Ha Hb]. destruct (num_trichotomy a b Ha Hb) as [H|[H|H]]; [|done|].
  - by apply num_lt_not_le in H.
  - by apply num_lt_not_le in H.
Qed.
Lemma sorted_nums_unique l1 l2 : StronglySorted num_le l1 -> StronglySorted num_le l2 -> l1 ≡ₚ l2 -> l1 = l2.
Proof.
  intros H1. revert l2. induction H1 as [|x l1 Hs IH Hf]; intros l2 H2 Hp; [apply Permutation_nil in Hp as ->; done|].
  destruct H2 as [|y l2 Hs2 Hf2]; [by symmetry in Hp; apply Permutation_nil in Hp|].
  assert (x = y) as ->.
  { assert (x ∈ y :: l2) as Hx by (rewrite <-Hp; by left). assert (y ∈ x :: l1) as Hy by (rewrite Hp; by left).
    apply elem_of_cons in Hx as [->|Hx]; [done|]. apply elem_of_cons in Hy as [->|Hy]; [done|].
    rewrite Forall_forall in Hf, Hf2. apply num_le_antisym; auto. }
  f_equal. apply IH; [done|]. by apply Permutation_cons_inv in Hp.
Qed.
Lemma num_sort_free l l' : Forall (fun n => n <> NaN) l -> l ≡ₚ l' -> num_sort l = num_sort l'.
Proof.
  intros Hn Hp. apply sorted_nums_unique; [by apply num_sort_sorted|apply num_sort_sorted; by rewrite <-Hp|]. by rewrite !num_sort_perm.
Qed.
Lemma fold1_free {A} (f : A -> A -> A) d l l' : (forall x y, x ∈ l -> y ∈ l -> f x y = f y x) ->
  (forall b x y, f (f b x) y = f (f b y) x) -> l ≡ₚ l' -> fold1 f d l = fold1 f d l'.
Proof.
  intros Hc Hf Hp. induction Hp as [|x l l' Hp IH|x y l|l1 l2 l3 Hp1 IH1 Hp2 IH2]; [done| | |].
  - simpl. by apply fold_left_perm.
  - simpl. f_equal. apply Hc; [by left|right; by left].
  - rewrite IH1 by done. apply IH2. intros x y Hx Hy. apply Hc; by rewrite Hp1.
Qed.
Lemma fold1_max_free l l' : Forall (fun n => n <> NaN) l -> l ≡ₚ l' -> fold1 num_max NaN l = fold1 num_max NaN l'.
Proof.
  intros Hn Hp. destruct l as [|a l]; [apply Permutation_nil in Hp as ->; done|]. destruct l' as [|b l']; [by symmetry in Hp; apply Permutation_nil in Hp|].
  assert (Hn' : Forall (fun n => n <> NaN) (b :: l')) by (by rewrite <-Hp).
  inversion Hn as [|? ? Ha Hl]; inversion Hn' as [|? ? Hb Hl']; subst. simpl.
  destruct (fold_max l a) as [H1 H2]; [done|done|]. destruct (fold_max l' b) as [H1' H2']; [done|done|].
  apply num_le_antisym; [apply H2'; by rewrite <-Hp|apply H2; by rewrite Hp].
Qed.
Lemma fold1_min_free l l' : Forall (fun n => n <> NaN) l -> l ≡ₚ l' -> fold1 num_min NaN l = fold1 num_min NaN l'.
Proof.
  intros Hn Hp. destruct l as [|a l]; [apply Permutation_nil in Hp as ->; done|]. destruct l' as [|b l']; [by symmetry in Hp; apply Permutation_nil in Hp|].
  assert (Hn' : Forall (fun n => n <> NaN) (b :: l')) by (by rewrite <-Hp).
  inversion Hn as [|? ? Ha Hl]; inversion Hn' as [|? ? Hb Hl']; subst. simpl.
  destruct (fold_min l a) as [H1 H2]; [done|done|]. destruct (fold_min l' b) as [H1' H2']; [done|done|].
  apply num_le_antisym; [apply H2; by rewrite Hp|apply H2'; by rewrite <-Hp].
Qed.
Lemma mean_free l l' : l ≡ₚ l' -> num_mean l = num_mean l'.
Proof. intros Hp. unfold num_mean. rewrite (fold_left_perm num_add l l') by (done || apply add_swap). by rewrite Hp. Qed.
Lemma var_free ddof l l' : l ≡ₚ l' -> num_var ddof l = num_var ddof l'.
Proof.
  intros Hp. unfold num_var. rewrite (mean_free l l' Hp), (Permutation_length Hp). f_equal. apply fold_left_perm; [apply add_swap|]. by apply fmap_Permutation.
Qed.
Lemma float_red_free op l l' : Forall (fun n => n <> NaN) l -> l ≡ₚ l' -> float_red op l = float_red op l'.
Proof.
  intros Hn Hp. unfold float_red. destruct l as [|a l]; [apply Permutation_nil in Hp as ->; done|].
  destruct l' as [|b l']; [by symmetry in Hp; apply Permutation_nil in Hp|]. destruct op; try done.
  - by apply fold_left_perm; [apply add_swap|].
  - by apply mean_free.
  - unfold num_median. by rewrite (num_sort_free (a :: l) (b :: l')).
  - by apply var_free.
  - by apply fold1_max_free.
  - by apply fold1_min_free.
Qed.
Lemma present_nums (l : list num) : Forall (fun n => n <> NaN) (filter (fun n => n <> NaN) l).
Proof. apply Forall_forall. by intros n [? _]%elem_of_list_filter. Qed.
Lemma red_lane_free op dt : order_free (red_lane op dt).
Proof.
  intros l l' Hp. assert (Hi : lane_ints l ≡ₚ lane_ints l') by (by apply omap_perm).
  assert (Hn : float_red op (lane_nums l) = float_red op (lane_nums l')).
  { unfold lane_nums. apply float_red_free; [apply present_nums|]. by apply filter_perm, omap_perm. }
  unfold red_lane. destruct op, dt; try (by f_equal); f_equal;
    try (by apply existsb_perm); try (by apply forallb_perm);
    try (apply fold_left_perm; [intros; lia|done]);
    try (apply fold_left_perm; [apply mul_swap|by apply omap_perm]);
    apply fold1_free; try done; intros; lia.
Qed.
Lemma geometric_free log exp : order_free (geometric_lane log exp).
Proof.
  intros l l' Hp. unfold geometric_lane. rewrite (Permutation_length (filter_perm (fun n => is_nan n = false) l l' Hp)). do 3 f_equal.
  apply fold_left_perm; [apply add_swap|]. by apply fmap_Permutation, fmap_Permutation.
Qed.
Lemma centre_pointwise op : pointwise (centre_lane op) (fun l n => num_sub n (float_red op (filter (fun n => n <> NaN) l))).
Proof. split; [|done]. intros x l l' Hp. f_equal. apply float_red_free; [apply present_nums|]. by apply filter_perm. Qed.
Lemma pointwise_perm {A B} (f : list A -> list B) g l l' : pointwise f g -> l ≡ₚ l' -> f l ≡ₚ f l'.
Proof.
  intros [Hg Hf] Hp. rewrite !Hf. rewrite (list_fmap_ext (g l) (g l') l); [by apply fmap_Permutation|]. intros i x _. by apply Hg.
Qed.
Lemma zscore_pointwise sqrt : exists g, pointwise (zscore_lane sqrt) g.
Proof.
  exists (fun l n => num_div (num_sub n (float_red RMean (filter (fun n => n <> NaN) l)))
    (match filter (fun n => n <> NaN) (centre_lane RMean l) with [] => NaN | l => sqrt (num_var 0 l) end)). split.
  - intros x l l' Hp. f_equal; [by apply (proj1 (centre_pointwise RMean) x l l')|].
    assert (filter (fun n => n <> NaN) (centre_lane RMean l) ≡ₚ filter (fun n => n <> NaN) (centre_lane RMean l')) as Hq
      by (apply filter_perm; eapply pointwise_perm; [apply centre_pointwise|done]).
    revert Hq. generalize (filter (fun n => n <> NaN) (centre_lane RMean l)) (filter (fun n => n <> NaN) (centre_lane RMean l')). intros k k' Hk.
    destruct k as [|a k]; [apply Permutation_nil in Hk as ->; done|]. destruct k' as [|b k']; [by symmetry in Hk; apply Permutation_nil in Hk|].
    by rewrite (var_free 0 _ _ Hk).
  - intros l. unfold zscore_lane. unfold centre_lane at 2. rewrite <-list_fmap_compose. done.
Qed.
Lemma zip_with_fmap_id {A B C} (h : B -> A -> C) (k : A -> B) l : zip_with h (k <$> l) l = (fun x => h (k x) x) <$> l.
Proof. induction l as [|x l IH]; [done|]. simpl. f_equal. apply IH. Qed.
Lemma nanrank_free n : order_free (fun l => nanrank l n).
Proof.
  intros l l' Hp. unfold nanrank. destruct (is_nan n); [done|].
  by rewrite (Permutation_length (filter_perm (fun m => num_ltb m n = true) l l' Hp)), (Permutation_length (filter_perm (fun m => num_eqb m n = true) l l' Hp)).
Qed.
Lemma ranking_pointwise ndtri norm : exists g, pointwise (ranking_lane ndtri norm) g.
Proof.
  exists (fun l n =>
    let len := Z.of_nat (length l) in
    let count := (len - Z.of_nat (length (filter (fun n => is_nan n = true) l)))%Z in
    let r := num_sub (nanrank l n) (num_of_Z 1) in
    let '(r, middle) :=
      match norm with
      | NormOne => (num_sub (num_mul (num_div r (num_of_Z (count - 1))) (num_of_Z 2)) (num_of_Z 1), num_of_Z 0)
      | NormN => (num_mul r (num_div (num_of_Z (len - 1)) (num_of_Z (count - 1))), num_sub (num_div (num_of_Z (len + 1)) (num_of_Z 2)) (num_of_Z 1))
      | NormGaussian =>
          (ndtri (num_div (num_add (num_mul r (num_div (num_of_Z (len - 1)) (num_of_Z (count - 1)))) (num_of_Z 1)) (num_of_Z (len + 1))), num_of_Z 0)
      | NormBad => (r, num_of_Z 0)
      end in
    if bool_decide (count = 1%Z) && negb (is_nan n) then middle else r). split.
  - intros x l l' Hp. cbv zeta. rewrite (nanrank_free x l l' Hp), (Permutation_length Hp).
    by rewrite (Permutation_length (filter_perm (fun n => is_nan n = true) l l' Hp)).
  - intros l. unfold ranking_lane, nanrankdata. destruct norm; rewrite <-?list_fmap_compose; cbv zeta; rewrite zip_with_fmap_id; done.
Qed.

(** * Arrays *)
Definition shuffles {A} (ps : list nat) (l l' : list A) : Prop := Forall2 (fun p v => l !! p = Some v) ps l'.
Lemma shuffle_perm {A} ps (l l' : list A) : shuffles ps l l' -> ps ≡ₚ seq 0 (length l) -> l' ≡ₚ l.
Proof.
  intros H Hp. assert (l' = omap (l !!.) ps) as ->.
  { clear Hp. induction H as [|p v ps l' Hv _ IH]; simpl; [done|]. rewrite Hv. by f_equal. }
  rewrite Hp. clear. induction l as [|x l IH] using rev_ind; [done|]. rewrite app_length. simpl length. rewrite Nat.add_1_r, seq_S, omap_app.
  simpl. rewrite lookup_app_r, Nat.sub_diag by lia. simpl. assert (omap ((l ++ [x]) !!.) (seq 0 (length l)) = omap (l !!.) (seq 0 (length l))) as ->.
  { apply list_omap_ext. apply Forall2_same_length_lookup_2; [done|]. intros i p q Hi Hj. assert (p = q) as -> by congruence.
    apply lookup_seq in Hj as [-> Hl]. simpl. by rewrite lookup_app_l. }
  by rewrite IH.
Qed.
Lemma shuffle_pointwise {A B} (f : list A -> list B) g ps l l' : pointwise f g -> shuffles ps l l' -> ps ≡ₚ seq 0 (length l) -> shuffles ps (f l) (f l').
Proof.
  intros [Hg Hf] H Hp. rewrite !Hf. pose proof (shuffle_perm _ _ _ H Hp) as Hp'. apply Forall2_fmap_r. eapply Forall2_impl; [exact H|]. intros p v Hv.
  rewrite list_lookup_fmap, Hv. simpl. f_equal. by apply Hg.
Qed.
Definition reorders {A} (ps : list nat) (a0 : nat) (a a' : arr A) : Prop :=
  picks ps a0 a a' /\ exists n, shape a !! a0 = Some n /\ ps ≡ₚ seq 0 n.
Lemma reorders_shape {A} ps a0 (a a' : arr A) : reorders ps a0 a a' -> shape a' = shape a.
Proof.
  intros [Hp (n & Hn & Hps)]. rewrite (picks_shape _ _ _ _ Hp). apply Permutation_length in Hps. rewrite seq_length in Hps. rewrite Hps.
  by apply list_insert_id.
Qed.
Lemma reorders_lane {A} ps a0 (a a' : arr A) idx l : reorders ps a0 a a' -> in_range (shape a) idx -> lane a a0 idx = Some l ->
  ps ≡ₚ seq 0 (length l) /\ exists l', lane a' a0 idx = Some l' /\ shuffles ps l l'.
Proof.
  intros Hr Hi Hl. pose proof (reorders_shape _ _ _ _ Hr) as Hs. destruct Hr as [(Hwf & Hwf' & (n & Hn & Hps) & _ & Hg) (m & Hm & Hp)].
  assert (m = n) as -> by congruence. apply lane_Some in Hl as (n' & Hn' & Hlen & Hget). assert (n' = n) as -> by congruence.
  rewrite Hlen. split; [done|]. destruct (lane_is_Some' a' a0 idx Hwf') as [l' Hl']; [rewrite Hs; eauto|by rewrite Hs|].
  exists l'. split; [done|]. apply lane_Some in Hl' as (n' & Hn2 & Hlen' & Hget'). assert (n' = n) as -> by congruence.
  assert (Ha : a0 < length idx) by (rewrite (in_range_length _ _ Hi); by eapply lookup_lt_Some).
  apply Forall2_same_length_lookup_2; [rewrite Hlen', (Permutation_length Hp); apply seq_length|].
  intros k p v Hk Hv. assert (k < n) as Hkn by (rewrite <-Hlen'; by eapply lookup_lt_Some).
  assert (Hpn : p < n) by (by eapply Forall_lookup_1 in Hps). rewrite <-Hget by done. rewrite <-Hv, <-Hget' by done.
  rewrite Hg.
  - unfold pick_at. rewrite list_lookup_insert by done. simpl. rewrite Hk. simpl. by rewrite list_insert_insert.
  - rewrite Hs, <-(list_insert_id (shape a) a0 n) by done. by apply in_range_insert.
Qed.
Lemma reorders_reduce {A B} ps a0 (a a' : arr A) (f : list A -> B) : reorders ps a0 a a' -> order_free f -> reduce f a' a0 = reduce f a a0.
Proof.
  intros Hr Hf. pose proof (reorders_shape _ _ _ _ Hr) as Hs. pose proof Hr as [(Hwf & Hwf' & _ & _ & _) (n & Hn & Hp)].
  unfold reduce, axlen. rewrite Hs, Hn. simpl. unfold build. f_equal. apply mapM_ext_elem. intros idx Hi%elem_of_indices.
  destruct n as [|n].
  - unfold lane, axlen. by rewrite Hs, Hn.
  - assert (Hri : in_range (shape a) (insert_at a0 0 idx)).
    { rewrite <-(insert_remove_at a0 (S n) (shape a)) by done. pose proof (lookup_lt_Some _ _ _ Hn) as Ha. pose proof (in_range_length _ _ Hi) as Hl.
      rewrite remove_at_length in Hl by done. apply in_range_insert_at; [rewrite ?remove_at_length by done; lia..|]. split; [lia|done]. }
    destruct (lane_is_Some' a a0 (insert_at a0 0 idx) Hwf) as [l Hl]; [eauto|done|].
    destruct (reorders_lane ps a0 a a' _ l Hr Hri Hl) as (Hpl & l' & Hl' & Hsh). rewrite Hl, Hl'. simpl. f_equal. apply Hf. by eapply shuffle_perm.
Qed.
Lemma pick_at_bij ps a0 sh n : sh !! a0 = Some n -> ps ≡ₚ seq 0 n -> 
  exists qs, qs ≡ₚ seq 0 (size_of sh) /\ Forall2 (fun idx q => exists i, pick_at ps a0 idx = Some i /\ in_range sh i /\ q = ravel sh i) (indices sh) qs.
Proof.
  intros Hn Hp. assert (Hlen : length ps = n) by (rewrite (Permutation_length Hp); apply seq_length).
  assert (Hps : Forall (fun p => p < n) ps) by (rewrite Hp; apply Forall_forall; intros p Hx%elem_of_seq; lia).
  assert (Hnd : NoDup ps) by (rewrite Hp; apply NoDup_seq).
  set (q idx := match pick_at ps a0 idx with Some i => ravel sh i | None => 0 end). exists (q <$> indices sh).
  assert (Hpick : forall idx, in_range sh idx -> exists k p, idx !! a0 = Some k /\ ps !! k = Some p /\ pick_at ps a0 idx = Some (<[a0 := p]> idx) /\ in_range sh (<[a0 := p]> idx)).
  { intros idx Hi. eapply pick_at_range; [done|done|]. by rewrite Hlen, list_insert_id. }
  assert (Hinj : forall i j, in_range sh i -> in_range sh j -> q i = q j -> i = j).
  { intros i j Hi Hj E. unfold q in E. destruct (Hpick i Hi) as (k & p & Hk & Hpk & Hpi & Hri). destruct (Hpick j Hj) as (k2 & p2 & Hk2 & Hpk2 & Hpi2 & Hri2).
    rewrite Hpi, Hpi2 in E. apply ravel_inj in E; [|done|done].
    assert (Hai : a0 < length i) by (by eapply lookup_lt_Some). assert (Haj : a0 < length j) by (by eapply lookup_lt_Some).
    assert (p = p2) as -> by (apply (f_equal (.!! a0)) in E; rewrite !list_lookup_insert in E by done; congruence).
    assert (k = k2) as -> by (by eapply NoDup_lookup).
    rewrite <-(list_insert_id i a0 k2), <-(list_insert_id j a0 k2) by done.
    rewrite <-(list_insert_insert i a0 k2 p2), <-(list_insert_insert j a0 k2 p2). by rewrite E. }
  split.
  - apply Permutation_sym, submseteq_Permutation_length_eq; [rewrite fmap_length, indices_length, seq_length; done|].
    apply NoDup_submseteq; [apply NoDup_seq|]. intros x Hx. apply elem_of_seq in Hx as [_ Hx].
    destruct (ravel_surj sh x) as (j & Hj & <-); [lia|]. destruct (lookup_lt_is_Some_2 j a0) as [p Hpj]; [rewrite (in_range_length _ _ Hj); by eapply lookup_lt_Some|].
    assert (p < n) as Hpn by (by eapply in_range_lookup). assert (p ∈ ps) as Hin by (rewrite Hp; apply elem_of_seq; lia).
    apply elem_of_list_lookup in Hin as [k Hk]. apply elem_of_list_fmap. exists (<[a0 := k]> j). split.
    + unfold q, pick_at. rewrite list_lookup_insert by (by eapply lookup_lt_Some). simpl. rewrite Hk. simpl. by rewrite list_insert_insert, list_insert_id.
    + apply elem_of_indices. rewrite <-(list_insert_id sh a0 n) by done. apply in_range_insert; [done|]. rewrite <-Hlen. by eapply lookup_lt_Some.
  - apply Forall2_fmap_r. apply Forall_Forall2_diag. apply Forall_forall. intros idx Hi%elem_of_indices.
    destruct (Hpick idx Hi) as (k & p & _ & _ & Hpi & Hri). exists (<[a0 := p]> idx). unfold q. by rewrite Hpi.
Qed.
(** All elements of the array, in order. *)
Lemma reorders_data {A} ps a0 (a a' : arr A) : reorders ps a0 a a' ->
  exists qs, qs ≡ₚ seq 0 (length (data a)) /\ shuffles qs (data a) (data a') /\
    Forall2 (fun idx q => exists i, pick_at ps a0 idx = Some i /\ in_range (shape a) i /\ q = ravel (shape a) i) (indices (shape a)) qs.
Proof.
  intros Hr. pose proof (reorders_shape _ _ _ _ Hr) as Hs. destruct Hr as [(Hwf & Hwf' & _ & _ & Hg) (n & Hn & Hp)].
  destruct (pick_at_bij ps a0 (shape a) n Hn Hp) as (qs & Hqs & Hq). exists qs. rewrite Hwf. split_and!; [done| |done].
  apply Forall2_same_length_lookup_2.
  { rewrite Hwf'. unfold asize. rewrite Hs, <-(Forall2_length _ _ _ Hq). symmetry. rewrite indices_length. done. }
  intros k q v Hk Hv. destruct (Forall2_lookup_r _ _ _ _ _ Hq Hk) as (idx & Hidx & i & Hpi & Hri & ->).
  apply indices_lookup in Hidx as [Hir <-]. assert (aget a' idx = Some v) as Hget by (unfold aget; rewrite decide_True by (by rewrite Hs); by rewrite Hs).
  rewrite (Hg idx) in Hget by (by rewrite Hs). rewrite Hpi in Hget. simpl in Hget. unfold aget in Hget. by rewrite decide_True in Hget.
Qed.
Lemma reorders_data_perm {A} ps a0 (a a' : arr A) : reorders ps a0 a a' -> data a' ≡ₚ data a.
Proof. intros (qs & Hqs & Hsh & _)%reorders_data. by eapply shuffle_perm. Qed.
Lemma reorders_amap {A B} ps a0 (a a' : arr A) (f : A -> B) : reorders ps a0 a a' -> reorders ps a0 (amap f a) (amap f a').
Proof. intros [H1 H2]. split; [by apply picks_amap|done]. Qed.
Lemma reorders_along {A B} ps a0 (a a' : arr A) (f : list A -> list B) g b : reorders ps a0 a a' -> pointwise f g -> along f a a0 = Some b ->
  exists b', along f a' a0 = Some b' /\ reorders ps a0 b b'.
Proof.
  intros Hr Hf Hb. pose proof (reorders_shape _ _ _ _ Hr) as Hs. pose proof Hr as [(Hwf & Hwf' & (n & Hn & Hps) & _ & Hg) (m & Hm & Hp)].
  assert (Hlen : forall l, length (f l) = length l) by (intros l; rewrite (proj2 Hf); apply fmap_length).
  destruct (along_is_Some f a' a0 Hlen Hwf') as [b' Hb']; [rewrite Hs; eauto|]. exists b'. split; [done|].
  destruct (along_Some f a b a0 Hlen Hwf Hb) as (Hsb & Hwb & Hgb). destruct (along_Some f a' b' a0 Hlen Hwf' Hb') as (Hsb' & Hwb' & Hgb').
  assert (m = n) as -> by congruence. assert (Hln : length ps = n) by (rewrite (Permutation_length Hp); apply seq_length).
  split; [|exists n; by rewrite Hsb]. split_and!; [done|done|exists n; by rewrite Hsb|rewrite Hsb, Hsb', Hs, Hln; symmetry; by apply list_insert_id|].
  intros idx Hi. rewrite Hsb', Hs in Hi. destruct (Hgb' idx) as (l' & k & Hl' & Hk & Hv & _); [by rewrite Hs|].
  destruct (pick_at_range ps a0 (shape a) n idx Hn Hps) as (k' & p & Hk' & Hpk & Hpi & Hri); [by rewrite Hln, list_insert_id|].
  assert (k' = k) as -> by congruence. rewrite Hpi. simpl. destruct (Hgb _ Hri) as (l & p' & Hl & Hp' & Hv2 & _).
  rewrite lane_insert in Hl. assert (p' = p) as ->.
  { rewrite list_lookup_insert in Hp'; [congruence|]. by eapply lookup_lt_Some. }
  destruct (reorders_lane ps a0 a a' idx l Hr Hi Hl) as (Hpl & l2 & Hl2 & Hsh). assert (l2 = l') as -> by congruence.
  pose proof (shuffle_pointwise f g ps l l' Hf Hsh Hpl) as Hff. rewrite Hv, Hv2.
  destruct (lookup_lt_is_Some_2 (f l') k) as [v Hv']. { rewrite <-(Forall2_length _ _ _ Hff). by eapply lookup_lt_Some. }
  rewrite Hv'. symmetry. by apply (Forall2_lookup_lr _ _ _ _ _ _ Hff Hpk Hv').
Qed.
Lemma reorders_flat {A B} ps a0 (a a' : arr A) (f : list A -> list B) g : reorders ps a0 a a' -> pointwise f g ->
  reorders ps a0 (Arr (shape a) (f (data a))) (Arr (shape a') (f (data a'))).
Proof.
  intros Hr Hf. pose proof (reorders_shape _ _ _ _ Hr) as Hs. destruct (reorders_data _ _ _ _ Hr) as (qs & Hqs & Hsh & Hq).
  assert (Hlen : forall l, length (f l) = length l) by (intros l; rewrite (proj2 Hf); apply fmap_length).
  pose proof Hr as [(Hwf & Hwf' & (n & Hn & Hps) & Hs0 & Hg) (m & Hm & Hp)].
  pose proof (shuffle_pointwise f g qs _ _ Hf Hsh Hqs) as Hff.
  split; [|by exists m]. split_and!; [unfold arr_wf; simpl; by rewrite Hlen|unfold arr_wf; simpl; by rewrite Hlen|by exists n|done|].
  intros idx Hi. simpl in Hi. assert (Hi' : in_range (shape a) idx) by (by rewrite <-Hs).
  assert (Hk : indices (shape a) !! ravel (shape a) idx = Some idx) by (by apply indices_lookup).
  destruct (Forall2_lookup_l _ _ _ _ _ Hq Hk) as (q & Hqk & i & Hpi & Hri & ->). rewrite Hpi. simpl. unfold aget. simpl.
  rewrite !decide_True by done. rewrite Hs. destruct (lookup_lt_is_Some_2 (f (data a')) (ravel (shape a) idx)) as [v Hv].
  { rewrite <-(Forall2_length _ _ _ Hff). by eapply lookup_lt_Some. }
  rewrite Hv. symmetry. by apply (Forall2_lookup_lr _ _ _ _ _ _ Hff Hqk Hv).
Qed.
