(** Arrays whose axes are permuted, and functions that commute with that. *)
From Verif Require Export SpecAxes CommuteFacts.

Definition perm_of (o : list nat) (n : nat) : Prop := o ≡ₚ seq 0 n.
Lemma perm_length o n : perm_of o n -> length o = n.
Proof. intros H. rewrite (Permutation_length H). apply seq_length. Qed.
Lemma perm_nodup o n : perm_of o n -> NoDup o.
Proof. unfold perm_of. intros ->. apply NoDup_seq. Qed.
Lemma perm_lt o n i : perm_of o n -> i ∈ o -> i < n.
Proof. unfold perm_of. intros ->. rewrite elem_of_seq. lia. Qed.
Lemma perm_in o n i : perm_of o n -> i < n -> i ∈ o.
Proof. unfold perm_of. intros ->. rewrite elem_of_seq. lia. Qed.
Lemma perm_pos o n i : perm_of o n -> i < n -> exists k, o !! k = Some i.
Proof. intros H Hi. by apply elem_of_list_lookup, (perm_in o n). Qed.
Lemma perm_lookup o n k i : perm_of o n -> o !! k = Some i -> i < n.
Proof. intros H Hk. eapply perm_lt; [done|]. by eapply elem_of_list_lookup_2. Qed.

Lemma permute_cons {A} i o (l : list A) : permute (i :: o) l = match l !! i with Some x => x :: permute o l | None => permute o l end.
Proof. done. Qed.
Lemma permute_lookup' {A} o (l : list A) k : Forall (fun i => i < length l) o -> permute o l !! k = (i ← o !! k; l !! i).
Proof.
  intros H. revert k. induction H as [|i o Hi _ IH]; intros k; [done|]. rewrite permute_cons.
  destruct (lookup_lt_is_Some_2 l i Hi) as [x Hx]. rewrite Hx. destruct k; simpl; [by rewrite Hx|]. apply IH.
Qed.
Lemma perm_forall o n : perm_of o n -> Forall (fun i => i < n) o.
Proof. intros H. apply Forall_forall. intros i. by apply perm_lt. Qed.
Lemma permute_lookup {A} o (l : list A) k : perm_of o (length l) -> permute o l !! k = (i ← o !! k; l !! i).
Proof. intros H. apply permute_lookup'. by apply perm_forall. Qed.
Lemma permute_length' {A} o (l : list A) : Forall (fun i => i < length l) o -> length (permute o l) = length o.
Proof.
  induction 1 as [|i o Hi _ IH]; [done|]. rewrite permute_cons. destruct (lookup_lt_is_Some_2 l i Hi) as [x ->]. simpl. by rewrite IH.
Qed.
Lemma permute_length {A} o (l : list A) : perm_of o (length l) -> length (permute o l) = length l.
Proof. intros H. rewrite permute_length' by (by apply perm_forall). by apply perm_length. Qed.
Lemma permute_lookup_Some {A} o (l : list A) k i : perm_of o (length l) -> o !! k = Some i -> permute o l !! k = l !! i.
Proof. intros H Hk. rewrite permute_lookup by done. by rewrite Hk. Qed.
Lemma permute_fmap {A B} (f : A -> B) o l : permute o (f <$> l) = f <$> permute o l.
Proof. induction o as [|i o IH]; [done|]. rewrite !permute_cons, list_lookup_fmap. destruct (l !! i); simpl; by rewrite IH. Qed.
Lemma permute_inj {A} o (l k : list A) : perm_of o (length l) -> length k = length l -> permute o l = permute o k -> l = k.
Proof.
  intros Ho Hl E. apply list_ext_len; [done|]. intros i Hi. destruct (perm_pos o _ i Ho Hi) as [p Hp].
  rewrite <-(permute_lookup_Some o l p i), <-(permute_lookup_Some o k p i) by (done || by rewrite Hl). by rewrite E.
Qed.
Lemma permute_insert {A} o (l : list A) k ax x : perm_of o (length l) -> o !! k = Some ax -> permute o (<[ax := x]> l) = <[k := x]> (permute o l).
Proof.
  intros Ho Hk. assert (Ho' : perm_of o (length (<[ax:=x]> l))) by (by rewrite insert_length).
  apply list_ext_len; [by rewrite insert_length, !permute_length, insert_length|]. intros j Hj. rewrite permute_length, insert_length in Hj by done.
  destruct (lookup_lt_is_Some_2 o j) as [i Hi]; [by rewrite (perm_length _ _ Ho)|].
  rewrite (permute_lookup_Some _ _ _ _ Ho' Hi). destruct (decide (j = k)) as [->|Hne].
  - assert (i = ax) as -> by congruence. rewrite !list_lookup_insert; [done|by rewrite permute_length|by eapply perm_lookup].
  - rewrite list_lookup_insert_ne by (intros ->; apply Hne; eapply NoDup_lookup; [by eapply perm_nodup|done|done]).
    rewrite list_lookup_insert_ne by done. symmetry. by apply permute_lookup_Some.
Qed.
Lemma permute_exists {A} (P : nat -> A -> Prop) o n (r : list A) : perm_of o n -> length r = n -> exists l, length l = n /\ permute o l = r.
Proof.
  intros Ho Hr. assert (exists l : list A, Forall2 (fun i x => forall k, o !! k = Some i -> r !! k = Some x) (seq 0 n) l) as [l Hl].
  { assert (forall s, (forall i, i ∈ s -> i < n) -> exists l : list A, Forall2 (fun i x => forall k, o !! k = Some i -> r !! k = Some x) s l) as K.
    { induction s as [|i s IH]; intros Hs; [by exists []|]. destruct IH as [l Hl]; [intros j Hj; apply Hs; by constructor|].
      destruct (perm_pos o n i Ho) as [k Hk]; [apply Hs; constructor|].
      destruct (lookup_lt_is_Some_2 r k) as [x Hx]; [rewrite Hr, <-(perm_length _ _ Ho); by eapply lookup_lt_Some|].
      exists (x :: l). constructor; [|done]. intros k' Hk'. assert (k' = k) as ->; [|done]. eapply NoDup_lookup; [by eapply perm_nodup|done|done]. }
    apply K. intros i Hi%elem_of_seq. lia. }
  assert (Hlen : length l = n) by (rewrite <-(Forall2_length _ _ _ Hl); apply seq_length). exists l. split; [done|].
  rewrite <-Hlen in Ho. apply list_ext_len; [rewrite permute_length by done; congruence|]. intros k Hk. rewrite permute_length in Hk by done.
  destruct (lookup_lt_is_Some_2 o k) as [i Hi]; [by rewrite (perm_length _ _ Ho)|]. rewrite (permute_lookup_Some _ _ _ _ Ho Hi).
  assert (i < length l) as Hil by (by eapply perm_lookup). destruct (lookup_lt_is_Some_2 l i Hil) as [x Hx]. rewrite Hx. symmetry.
  destruct (Forall2_lookup_r _ _ _ _ _ Hl Hx) as (i' & Hi' & H). apply lookup_seq in Hi' as [-> _]. by apply H.
Qed.
Lemma permute_range o sh idx : perm_of o (length sh) -> in_range sh idx -> in_range (permute o sh) (permute o idx).
Proof.
  intros Ho Hr. pose proof (in_range_length _ _ Hr) as Hl. assert (Ho' : perm_of o (length idx)) by (by rewrite Hl).
  apply Forall2_same_length_lookup_2; [by rewrite !permute_length|]. intros k i n Hi Hn.
  rewrite permute_lookup in Hi, Hn by done. destruct (o !! k) as [j|]; [|done]. simpl in *. by eapply in_range_lookup.
Qed.
Lemma permute_range_inv o sh idx : perm_of o (length sh) -> length idx = length sh -> in_range (permute o sh) (permute o idx) -> in_range sh idx.
Proof.
  intros Ho Hl Hr. assert (Ho' : perm_of o (length idx)) by (by rewrite Hl).
  apply Forall2_same_length_lookup_2; [done|]. intros k i n Hi Hn.
  destruct (perm_pos o _ k Ho) as [p Hp]; [by eapply lookup_lt_Some|].
  eapply in_range_lookup; [exact Hr|by rewrite (permute_lookup_Some _ _ _ _ Ho Hp)|by rewrite (permute_lookup_Some _ _ _ _ Ho' Hp)].
Qed.
Lemma permute_range_ex o sh idx' : perm_of o (length sh) -> in_range (permute o sh) idx' -> exists idx, in_range sh idx /\ idx' = permute o idx.
Proof.
  intros Ho Hr. pose proof (in_range_length _ _ Hr) as Hl. rewrite permute_length in Hl by done.
  destruct (permute_exists (fun _ (_ : nat) => True) o (length sh) idx' Ho Hl) as (idx & Hli & <-). exists idx. split; [|done].
  by eapply permute_range_inv.
Qed.
Lemma permute_id {A} (l : list A) : permute (seq 0 (length l)) l = l.
Proof.
  assert (perm_of (seq 0 (length l)) (length l)) as Ho by (unfold perm_of; reflexivity). apply list_ext_len; [by apply permute_length|].
  intros i Hi. rewrite permute_length in Hi by done. apply permute_lookup_Some; [done|]. by apply lookup_seq_lt.
Qed.
Lemma permute_perm {A} o (l : list A) : perm_of o (length l) -> permute o l ≡ₚ l.
Proof. intros Ho. rewrite <-(permute_id l) at 2. unfold permute. rewrite Ho. done. Qed.
Lemma size_perm sh sh' : sh ≡ₚ sh' -> size_of sh = size_of sh'.
Proof. unfold size_of. induction 1; simpl; lia. Qed.
Lemma permute_size o sh : perm_of o (length sh) -> size_of (permute o sh) = size_of sh.
Proof. intros H. by apply size_perm, permute_perm. Qed.

(** * Without one axis *)
Lemma delete_lookup {A} k (l : list A) j : delete k l !! j = l !! (if decide (j < k) then j else S j).
Proof. case_decide; [by rewrite lookup_delete_lt|]. rewrite lookup_delete_ge by lia. done. Qed.
Lemma axis_left_inj ax i j : i <> ax -> j <> ax -> axis_left ax i = axis_left ax j -> i = j.
Proof. unfold axis_left. repeat case_decide; lia. Qed.
Lemma axis_left_lt ax i n : i <> ax -> i < n -> ax < n -> axis_left ax i < pred n.
Proof. unfold axis_left. repeat case_decide; lia. Qed.
Lemma order_left_entry o n k ax j : perm_of o n -> o !! k = Some ax -> j < pred n ->
  exists i, o !! (if decide (j < k) then j else S j) = Some i /\ i <> ax /\ i < n /\ order_left k ax o !! j = Some (axis_left ax i).
Proof.
  intros Ho Hk Hj. pose proof (perm_length _ _ Ho) as Hl. destruct (lookup_lt_is_Some_2 o (if decide (j < k) then j else S j)) as [i Hi]; [case_decide; lia|].
  exists i. split_and!; [done| |by eapply perm_lookup|].
  - intros ->. assert ((if decide (j < k) then j else S j) = k) as E by (eapply NoDup_lookup; [by eapply perm_nodup|done|done]). case_decide; lia.
  - unfold order_left. rewrite list_lookup_fmap, delete_lookup, Hi. done.
Qed.
Lemma order_left_length o n k ax : perm_of o n -> o !! k = Some ax -> length (order_left k ax o) = pred n.
Proof. intros Ho Hk. unfold order_left. rewrite fmap_length, length_delete by eauto. rewrite (perm_length _ _ Ho). lia. Qed.
Lemma order_left_perm o n k ax : perm_of o n -> o !! k = Some ax -> perm_of (order_left k ax o) (pred n).
Proof.
  intros Ho Hk. pose proof (perm_lookup _ _ _ _ Ho Hk) as Hax. pose proof (order_left_length _ _ _ _ Ho Hk) as Hl. apply submseteq_Permutation_length_eq; [by rewrite seq_length|].
  apply NoDup_submseteq.
  - apply NoDup_alt. intros i j x Hi Hj. assert (i < pred n) as Hi' by (rewrite <-Hl; by eapply lookup_lt_Some). assert (j < pred n) as Hj' by (rewrite <-Hl; by eapply lookup_lt_Some).
    destruct (order_left_entry o n k ax i Ho Hk Hi') as (a & Ha & Hna & _ & Hia). destruct (order_left_entry o n k ax j Ho Hk Hj') as (b & Hb & Hnb & _ & Hjb).
    assert (a = b) as -> by (eapply axis_left_inj; [done|done|congruence]).
    assert ((if decide (i < k) then i else S i) = (if decide (j < k) then j else S j)) as E by (eapply NoDup_lookup; [by eapply perm_nodup|done|done]). repeat case_decide; lia.
  - intros x Hx. apply elem_of_list_lookup in Hx as [j Hj]. assert (j < pred n) as Hj' by (rewrite <-Hl; by eapply lookup_lt_Some).
    destruct (order_left_entry o n k ax j Ho Hk Hj') as (a & _ & Hna & Han & Hja). assert (x = axis_left ax a) as -> by congruence.
    apply elem_of_seq. pose proof (axis_left_lt ax a n Hna Han Hax). lia.
Qed.
Lemma permute_remove {A} o (l : list A) k ax : perm_of o (length l) -> o !! k = Some ax -> permute (order_left k ax o) (remove_at ax l) = remove_at k (permute o l).
Proof.
  intros Ho Hk. pose proof (perm_lookup _ _ _ _ Ho Hk) as Hax. pose proof (order_left_perm _ _ _ _ Ho Hk) as Hp.
  assert (Hlr : length (remove_at ax l) = pred (length l)) by (by apply remove_at_length). rewrite <-Hlr in Hp.
  assert (Hkl : k < length (permute o l)) by (rewrite permute_length by done; rewrite <-(perm_length _ _ Ho); by eapply lookup_lt_Some).
  apply list_ext_len; [rewrite remove_at_length, !permute_length by done; done|]. intros j Hj. rewrite permute_length, Hlr in Hj by done.
  destruct (order_left_entry o _ k ax j Ho Hk Hj) as (i & Hi & Hna & Hin & Hji). rewrite (permute_lookup_Some _ _ _ _ Hp Hji).
  rewrite remove_at_less by done. unfold remove_at. rewrite delete_lookup. symmetry. by apply permute_lookup_Some.
Qed.
Lemma permute_insert_at {A} o (l : list A) k ax x : perm_of o (S (length l)) -> o !! k = Some ax -> permute o (insert_at ax x l) = insert_at k x (permute (order_left k ax o) l).
Proof.
  intros Ho Hk. pose proof (perm_lookup _ _ _ _ Ho Hk) as Hax. assert (Hl : length (insert_at ax x l) = S (length l)) by (apply insert_at_length; lia).
  rewrite <-Hl in Ho. rewrite <-(remove_insert_at ax x l) at 2 by lia. rewrite permute_remove by done.
  symmetry. apply insert_remove_at. rewrite (permute_lookup_Some _ _ _ _ Ho Hk). apply insert_at_lookup. lia.
Qed.

(** * Arrays *)
Definition perms {A} (o : list nat) (a a' : arr A) : Prop :=
  arr_wf a /\ arr_wf a' /\ perm_of o (length (shape a)) /\ shape a' = permute o (shape a) /\
  forall idx, in_range (shape a) idx -> aget a' (permute o idx) = aget a idx.
Lemma perms_build_shape {B} o sh (g g' : list nat -> option B) b : perm_of o (length sh) -> build sh g = Some b ->
  (forall idx, in_range sh idx -> g' (permute o idx) = g idx) ->
  exists b', build (permute o sh) g' = Some b' /\ perms o b b'.
Proof.
  intros Ho Hb Hg. apply build_Some in Hb as (Hsb & Hwb & Hgb).
  destruct (proj2 (build_is_Some (permute o sh) g')) as [b' Hb'].
  { intros idx' Hi. destruct (permute_range_ex o sh idx' Ho Hi) as (idx & Hr & ->). rewrite Hg by done. rewrite <-Hgb by done.
    apply get_is_Some; [done|by rewrite Hsb]. }
  exists b'. split; [done|]. apply build_Some in Hb' as (Hsb' & Hwb' & Hgb'). split_and!; [done|done|by rewrite Hsb|by rewrite Hsb', Hsb|].
  intros idx Hi. rewrite Hsb in Hi. rewrite Hgb', Hgb; [by apply Hg|done|by apply permute_range].
Qed.
Lemma perms_build {A B} o (a a' : arr A) (g g' : list nat -> option B) b : perms o a a' -> build (shape a) g = Some b ->
  (forall idx, in_range (shape a) idx -> g' (permute o idx) = g idx) ->
  exists b', build (shape a') g' = Some b' /\ perms o b b'.
Proof. intros (_ & _ & Ho & -> & _). by apply perms_build_shape. Qed.
Lemma perms_amap {A B} o (a a' : arr A) (f : A -> B) : perms o a a' -> perms o (amap f a) (amap f a').
Proof.
  intros (Hwf & Hwf' & Ho & Hs & Hg). split_and!; [by apply amap_wf|by apply amap_wf|done|done|].
  intros idx Hr. by rewrite !get_amap, (Hg idx Hr).
Qed.
Lemma perms_azip {A B C} o (a a' : arr A) (b b' : arr B) (f : A -> B -> C) : perms o a a' -> perms o b b' -> shape b = shape a ->
  perms o (azip f a b) (azip f a' b').
Proof.
  intros (Hwf & Hwf' & Hn & Hs & Hg) (Hwb & Hwb' & Hnb & Hsb & Hgb) Hsh. assert (Hsh' : shape b' = shape a') by congruence.
  split_and!; [by apply azip_wf|by apply azip_wf|done|done|].
  intros idx Hr. change (shape (azip f a b)) with (shape a) in Hr. rewrite !get_azip by done. rewrite (Hg idx Hr), Hgb by (by rewrite Hsh). done.
Qed.
Lemma perms_full {A} o sh (v : A) : perm_of o (length sh) -> perms o (full sh v) (full (permute o sh) v).
Proof.
  intros Ho. split_and!; [apply full_wf|apply full_wf|done|done|]. intros idx Hr. simpl in Hr. rewrite !get_full. rewrite !decide_True; [done|done|by apply permute_range].
Qed.
Lemma perms_full_like {A B} o (a a' : arr A) (v : B) : perms o a a' -> perms o (full (shape a) v) (full (shape a') v).
Proof. intros (_ & _ & Ho & -> & _). by apply perms_full. Qed.
Lemma perms_ndim {A} o (a a' : arr A) : perms o a a' -> length (shape a') = length (shape a).
Proof. intros (_ & _ & Ho & -> & _). by apply permute_length. Qed.
Lemma perms_size {A} o (a a' : arr A) : perms o a a' -> size_of (shape a') = size_of (shape a).
Proof. intros (_ & _ & Ho & -> & _). by apply permute_size. Qed.
Lemma perms_axlen {A} o (a a' : arr A) k ax : perms o a a' -> o !! k = Some ax -> shape a' !! k = shape a !! ax.
Proof. intros (_ & _ & Ho & -> & _) Hk. by apply permute_lookup_Some. Qed.
Lemma indices_perm o sh : perm_of o (length sh) -> indices (permute o sh) ≡ₚ permute o <$> indices sh.
Proof.
  intros Ho. apply NoDup_Permutation.
  - apply NoDup_indices.
  - apply NoDup_fmap_2_strong; [|apply NoDup_indices]. intros i j Hi%elem_of_indices Hj%elem_of_indices E.
    apply in_range_length in Hi, Hj. eapply permute_inj; [by rewrite Hi|congruence|done].
  - intros idx. rewrite elem_of_indices, elem_of_list_fmap. split.
    + intros Hr. destruct (permute_range_ex o sh idx Ho Hr) as (i & Hi & ->). exists i. by rewrite elem_of_indices.
    + intros (i & -> & Hi%elem_of_indices). by apply permute_range.
Qed.
Lemma perms_data {A} o (a a' : arr A) : perms o a a' -> data a' ≡ₚ data a.
Proof.
  intros (Hwf & Hwf' & Ho & Hs & Hg).
  assert (Hd : forall b : arr A, arr_wf b -> data b = omap (aget b) (indices (shape b))).
  { intros b Hb. apply list_ext_len.
    - rewrite Hb. unfold asize. rewrite <-indices_length. assert (forall l : list (list nat), (forall i, i ∈ l -> is_Some (aget b i)) -> length l = length (omap (aget b) l)) as K.
      { induction l as [|i l IH]; intros H; [done|]. simpl. destruct (H i) as [v ->]; [by constructor|]. simpl. f_equal. apply IH. intros j Hj. apply H. by constructor. }
      apply K. intros i Hi%elem_of_indices. by apply get_is_Some.
    - intros i _. assert (forall (l : list (list nat)) (j : nat), (forall i, i ∈ l -> is_Some (aget b i)) -> omap (aget b) l !! j = (x ← l !! j; aget b x)) as K.
      { induction l as [|x l IH]; intros j H; [done|]. simpl. destruct (H x) as [v Hv]; [by constructor|]. rewrite Hv. destruct j; simpl; [done|]. apply IH.
        intros y Hy. apply H. by constructor. }
      rewrite K by (intros x Hx%elem_of_indices; by apply get_is_Some). destruct (indices (shape b) !! i) as [x|] eqn:Ex; simpl.
      + apply indices_lookup in Ex as [Hr <-]. unfold aget. by rewrite decide_True.
      + apply lookup_ge_None in Ex. rewrite indices_length in Ex. apply lookup_ge_None. rewrite Hb. done. }
  rewrite (Hd a Hwf), (Hd a' Hwf'), Hs, (indices_perm o _ Ho). apply Permutation_refl'. clear Hd Hs.
  assert (forall l : list (list nat), (forall i, i ∈ l -> in_range (shape a) i) -> omap (aget a') (permute o <$> l) = omap (aget a) l) as K.
  { induction l as [|i l IH]; intros H; [done|]. csimpl. cbn [omap list_omap]. rewrite Hg by (apply H; by constructor). rewrite IH; [done|]. intros j Hj. apply H. by constructor. }
  apply K. by intros i Hi%elem_of_indices.
Qed.
Lemma perms_elems {A} o (a a' : arr A) v : perms o a a' -> v ∈ data a' -> v ∈ data a.
Proof. intros H. by rewrite (perms_data _ _ _ H). Qed.
Lemma inverse_order o n : perm_of o n -> exists o', perm_of o' n /\ (forall i k, o !! k = Some i <-> o' !! i = Some k).
Proof.
  intros Ho. destruct (permute_exists (fun _ (_ : nat) => True) o n (seq 0 n) Ho (seq_length _ _)) as (o' & Hl & E).
  assert (Ho' : perm_of o (length o')) by (by rewrite Hl).
  assert (K : forall i k, o !! k = Some i -> o' !! i = Some k).
  { intros i k Hk. rewrite <-(permute_lookup_Some o o' k i Ho' Hk). rewrite E. apply lookup_seq_lt. rewrite <-(perm_length _ _ Ho). by eapply lookup_lt_Some. }
  assert (Hp : perm_of o' n) by (unfold perm_of; rewrite <-E; by rewrite permute_perm).
  exists o'. split; [done|]. intros i k. split; [apply K|]. intros Hi. destruct (perm_pos o n i Ho) as [k' Hk']; [rewrite <-Hl; by eapply lookup_lt_Some|].
  pose proof (K _ _ Hk'). congruence.
Qed.
Lemma inverse_permute {A} o o' (l : list A) : perm_of o (length l) -> perm_of o' (length l) -> (forall i k, o !! k = Some i <-> o' !! i = Some k) ->
  permute o' (permute o l) = l.
Proof.
  intros Ho Ho' H. assert (Hl : length (permute o l) = length l) by (by apply permute_length).
  assert (Ho2 : perm_of o' (length (permute o l))) by (by rewrite Hl).
  apply list_ext_len; [by rewrite permute_length|]. intros i Hi. rewrite permute_length, Hl in Hi by done.
  destruct (lookup_lt_is_Some_2 o' i) as [k Hk]; [by rewrite (perm_length _ _ Ho')|]. rewrite (permute_lookup_Some _ _ _ _ Ho2 Hk).
  apply permute_lookup_Some; [done|]. by apply H.
Qed.

Lemma perms_lane {A} o (a a' : arr A) k ax idx : perms o a a' -> o !! k = Some ax -> in_range (shape a) idx ->
  lane a' k (permute o idx) = lane a ax idx.
Proof.
  intros Hp Hk Hr. pose proof Hp as (Hwf & Hwf' & Ho & Hs & Hg). unfold lane, axlen. rewrite (perms_axlen _ _ _ _ _ Hp Hk).
  destruct (shape a !! ax) as [m|] eqn:Em; simpl; [|done]. apply mapM_ext_elem. intros j Hj. apply elem_of_seq in Hj as [_ Hj].
  rewrite <-(permute_insert o idx k ax j) by (done || by rewrite (in_range_length _ _ Hr)). apply Hg.
  rewrite <-(list_insert_id (shape a) ax m) by done. apply in_range_insert; [done|lia].
Qed.
Lemma perms_along {A B} o (a a' : arr A) (f : list A -> list B) k ax b : perms o a a' -> o !! k = Some ax -> along f a ax = Some b ->
  exists b', along f a' k = Some b' /\ perms o b b'.
Proof.
  intros Hp Hk Hb. unfold along in *. eapply perms_build; [exact Hp|exact Hb|]. intros idx Hr. cbn beta.
  rewrite (perms_lane o a a' k ax idx) by done. pose proof Hp as (_ & _ & Ho & _).
  by rewrite (permute_lookup_Some o idx k ax) by (done || by rewrite (in_range_length _ _ Hr)).
Qed.
Lemma perms_reduce {A B} o (a a' : arr A) (f : list A -> B) k ax b : perms o a a' -> o !! k = Some ax -> reduce f a ax = Some b ->
  exists b', reduce f a' k = Some b' /\ perms (order_left k ax o) b b'.
Proof.
  intros Hp Hk Hb. pose proof Hp as (Hwf & Hwf' & Ho & Hs & Hg). pose proof (perm_lookup _ _ _ _ Ho Hk) as Hax.
  assert (Hlr : length (remove_at ax (shape a)) = pred (length (shape a))) by (by apply remove_at_length).
  unfold reduce, axlen in *. rewrite (perms_axlen _ _ _ _ _ Hp Hk). destruct (shape a !! ax) as [m|] eqn:Em; simpl in *; [|done].
  rewrite Hs, <-(permute_remove o _ k ax) by done. eapply perms_build_shape; [rewrite Hlr; by apply order_left_perm|exact Hb|].
  intros idx Hr. cbn beta. f_equal. pose proof (in_range_length _ _ Hr) as Hl. rewrite Hlr in Hl.
  assert (Ho1 : perm_of o (S (length idx))) by (rewrite Hl, Nat.succ_pred by lia; done).
  rewrite <-(permute_insert_at o idx k ax 0) by done. destruct (decide (m = 0)) as [->|Hm].
  { unfold lane, axlen. rewrite Em. by rewrite (perms_axlen _ _ _ _ _ Hp Hk), Em. }
  apply perms_lane; [done|done|]. rewrite <-(insert_remove_at ax m (shape a)) by done. apply in_range_insert_at; [lia|lia|]. split; [lia|done].
Qed.
Lemma perms_take_pos {A} o (a a' : arr A) ids k ax b : perms o a a' -> o !! k = Some ax -> take_pos a ids ax = Some b ->
  exists b', take_pos a' ids k = Some b' /\ perms o b b'.
Proof.
  intros Hp Hk H. pose proof Hp as (_ & _ & Ho & Hs & Hg). unfold take_pos in *. unfold axlen in *.
  rewrite (perms_axlen _ _ _ _ _ Hp Hk). destruct (shape a !! ax) as [m|] eqn:Em; simpl in *; [|done].
  case_decide as Hids; [|done]. unfold gather in *. rewrite Hs. rewrite <-(permute_insert o _ k ax) by done.
  eapply perms_build_shape; [by rewrite insert_length|exact H|]. intros idx Hr. cbn beta.
  pose proof (in_range_length _ _ Hr) as Hl. rewrite insert_length in Hl. assert (Hoi : perm_of o (length idx)) by (by rewrite Hl).
  rewrite (permute_lookup_Some o idx k ax) by done. destruct (idx !! ax) as [j|] eqn:Ej; simpl; [|done].
  destruct (ids !! j) as [q|] eqn:Eq; simpl; [|done]. rewrite <-(permute_insert o idx k ax q) by done. apply Hg.
  eapply in_range_insert_inv; [exact Hr|done|]. by eapply Forall_lookup_1 in Hids.
Qed.

(** * larrys *)
Definition nperms (o : list nat) (x x' : nda) : Prop := nd_dtype x' = nd_dtype x /\ perms o (nd_arr x) (nd_arr x').
Definition lperms (o : list nat) (y y' : larry) : Prop :=
  valid y /\ valid y' /\ nperms o (lx y) (lx y') /\ llabel y' = permute o (llabel y).
Lemma labels_at_lookup {A} (label : list (list A)) idx ls : labels_at label idx ls <->
  length idx = length label /\ length ls = length label /\
  forall k l i x, label !! k = Some l -> idx !! k = Some i -> ls !! k = Some x -> l !! i = Some x.
Proof.
  split.
  - induction 1 as [|l i x label idx ls H _ (IH1 & IH2 & IH3)]; [done|]. simpl. split_and!; [lia|lia|]. intros [|k] l0 i0 x0; simpl; [congruence|apply IH3].
  - revert idx ls. induction label as [|l label IH]; intros [|i idx] [|x ls] (H1 & H2 & H3); simpl in *; try done; [constructor|].
    constructor; [by apply (H3 0)|]. apply IH. split_and!; [lia|lia|]. intros k. apply (H3 (S k)).
Qed.
Lemma labels_at_permute {A} o (label : list (list A)) idx ls : perm_of o (length label) -> labels_at label idx ls ->
  labels_at (permute o label) (permute o idx) (permute o ls).
Proof.
  intros Ho (H1 & H2 & H3)%labels_at_lookup. apply labels_at_lookup.
  assert (Hi : perm_of o (length idx)) by (by rewrite H1). assert (Hl : perm_of o (length ls)) by (by rewrite H2).
  rewrite !permute_length by done. split_and!; [done|done|]. intros k l i x. rewrite !permute_lookup by done.
  destruct (o !! k) as [j|]; simpl; [|done]. apply H3.
Qed.
Lemma perms_nda_wf o x x' : nda_wf x -> nperms o x x' -> nda_wf x'.
Proof.
  intros [_ Ht] [Hdt Hp]. split; [apply Hp|]. rewrite Hdt. apply Forall_forall. intros v Hv.
  eapply Forall_forall in Ht; [exact Ht|]. by apply (perms_elems _ _ _ _ Hp).
Qed.
Lemma plift o label x x' : valid (Larry x label) -> nperms o x x' -> lperms o (Larry x label) (Larry x' (permute o label)).
Proof.
  intros Hv Hp. pose proof Hv as (Hw & Hne & Hsh & Hnds). split_and!; [done| |done|done]. simpl in *.
  assert (Ho : perm_of o (length label)). { destruct Hp as (_ & _ & _ & Ho & _). change (shape (nd_arr x)) with (lshape (Larry x label)) in Ho. rewrite <-Hsh in Ho. by rewrite fmap_length in Ho. }
  split_and!; simpl.
  - by eapply perms_nda_wf.
  - intros E. apply (f_equal length) in E. rewrite permute_length in E by done. by destruct label.
  - rewrite <-permute_fmap, Hsh. destruct Hp as (_ & _ & _ & _ & Hs & _). done.
  - by rewrite permute_perm.
Qed.
Lemma axes_lperms o y y' : valid y -> axes_permuted o y y' -> lperms o y y'.
Proof.
  intros Hv (Ho & Hv' & Hd & Hl & Hc). split_and!; [done|done| |done]. split; [done|].
  assert (Hs : lshape y = length <$> llabel y) by (symmetry; apply Hv). assert (Hs' : lshape y' = length <$> llabel y') by (symmetry; apply Hv').
  split_and!; [apply Hv|apply Hv'| | |].
  - change (perm_of o (length (lshape y))). by rewrite Hs, fmap_length.
  - change (lshape y' = permute o (lshape y)). by rewrite Hs, Hs', Hl, permute_fmap.
  - intros idx Hr. change (in_range (lshape y) idx) in Hr. destruct (labels_at_exists (llabel y) idx) as (ls & Hls); [by rewrite <-Hs|].
    assert (Hg : in_grid (llabel y) ls) by (apply in_grid_labels_at; eauto). specialize (Hc ls Hg).
    pose proof (labels_at_permute o _ _ _ Ho Hls) as Hls'. rewrite <-Hl in Hls'.
    rewrite (cell_at y' _ _ (valid_nodup _ Hv') Hls'), (cell_at y idx ls (valid_nodup _ Hv) Hls) in Hc. done.
Qed.
Lemma lperms_axes o y y' : lperms o y y' -> axes_permuted o y y'.
Proof.
  intros (Hv & Hv' & (Hd & Hp) & Hl). pose proof Hp as (_ & _ & Ho & Hs & Hg). change (shape (nd_arr (lx y))) with (lshape y) in *.
  assert (Hsl : lshape y = length <$> llabel y) by (symmetry; apply Hv). assert (Ho' : perm_of o (length (llabel y))) by (rewrite Hsl, fmap_length in Ho; done).
  split_and!; [done|done|done|done|]. intros ls Hgr. apply in_grid_labels_at in Hgr as [idx Hls].
  pose proof (labels_at_permute o _ _ _ Ho' Hls) as Hls'. rewrite <-Hl in Hls'.
  rewrite (cell_at y' _ _ (valid_nodup _ Hv') Hls'), (cell_at y idx ls (valid_nodup _ Hv) Hls). apply Hg. rewrite Hsl. by eapply labels_at_in_range.
Qed.
Lemma axes_unique o y z1 z2 : axes_permuted o y z1 -> axes_permuted o y z2 -> z1 = z2.
Proof.
  intros (Ho & Hv1 & Hd1 & Hl1 & Hc1) (_ & Hv2 & Hd2 & Hl2 & Hc2). apply larry_ext; [done|done|congruence|congruence|].
  intros ls Hg. rewrite Hl1 in Hg. assert (length ls = length (llabel y)) as Hlen by (apply Forall2_length in Hg; by rewrite permute_length in Hg).
  destruct (permute_exists (fun _ (_ : lab) => True) o _ ls Ho Hlen) as (ls0 & Hl0 & <-).
  assert (Hg0 : in_grid (llabel y) ls0).
  { apply Forall2_same_length_lookup_2; [done|]. intros i x t Hx Ht. destruct (perm_pos o _ i Ho) as [k Hk]; [by eapply lookup_lt_Some|].
    eapply (Forall2_lookup_lr _ _ _ k) in Hg; [exact Hg|by rewrite (permute_lookup_Some o ls0 k i) by (done || by rewrite Hl0)|by rewrite (permute_lookup_Some o _ k i)]. }
  by rewrite Hc1, Hc2.
Qed.
Lemma axes_back o y y' : valid y -> axes_permuted o y y' -> exists o', axes_permuted o' y' y.
Proof.
  intros Hv Hp. pose proof (axes_lperms _ _ _ Hv Hp) as (_ & Hv' & (_ & Hpp) & _). destruct Hp as (Ho & _ & Hd & Hl & Hc). destruct (inverse_order _ _ Ho) as (o' & Ho' & Hinv).
  assert (Hlen : length (llabel y') = length (llabel y)) by (rewrite Hl; by apply permute_length).
  exists o'. split_and!; [by rewrite Hlen|done|done|rewrite Hl; symmetry; by apply inverse_permute|].
  intros ls Hg. assert (length ls = length (llabel y)) as Hll by (apply Forall2_length in Hg; by rewrite Hlen in Hg).
  destruct (permute_exists (fun _ (_ : lab) => True) o _ ls Ho Hll) as (ls0 & Hl0 & <-).
  rewrite inverse_permute; [|by rewrite Hl0|by rewrite Hl0|done]. symmetry. apply Hc.
  apply Forall2_same_length_lookup_2; [done|]. intros i x t Hx Ht. destruct (perm_pos o _ i Ho) as [k Hk]; [by eapply lookup_lt_Some|].
  rewrite Hl in Hg. eapply (Forall2_lookup_lr _ _ _ k) in Hg; [exact Hg|by rewrite (permute_lookup_Some o ls0 k i) by (done || by rewrite Hl0)|by rewrite (permute_lookup_Some o _ k i)].
Qed.
