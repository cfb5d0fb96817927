(** Lemmas about shuffling and resampling. *)
From Verif Require Export Resample LarryFacts SortbyFacts.

(** * numpy's shuffle *)

Lemma insert_mid {A} (l1 l2 : list A) x y : <[length l1 := y]> (l1 ++ x :: l2) = l1 ++ y :: l2.
Proof. rewrite insert_app_r_alt, Nat.sub_diag by done. done. Qed.
Lemma swap_values {A} (l : list A) i j a b : l !! i = Some a -> l !! j = Some b -> <[j := a]> (<[i := b]> l) ≡ₚ l.
Proof.
  assert (H : forall i j a b, i < j -> l !! i = Some a -> l !! j = Some b ->
    exists l1 l2 l3, l = l1 ++ a :: l2 ++ b :: l3 /\ i = length l1 /\ j = length (l1 ++ a :: l2)).
  { clear. intros i j a b Hij (l1 & r & -> & ->)%elem_of_list_split_length Hj.
    rewrite lookup_app_r in Hj by lia. destruct (j - length l1) as [|k] eqn:Ek; [lia|]. simpl in Hj.
    apply elem_of_list_split_length in Hj as (l2 & l3 & -> & ->). exists l1, l2, l3. split_and!; try done.
    rewrite app_length. simpl. lia. }
  intros Hi Hj. destruct (lt_eq_lt_dec i j) as [[Hij| ->]|Hij].
  - destruct (H i j a b Hij Hi Hj) as (l1 & l2 & l3 & -> & -> & ->). rewrite insert_mid.
    replace (length (l1 ++ a :: l2)) with (length (l1 ++ b :: l2)) by (rewrite !app_length; done).
    replace (l1 ++ b :: l2 ++ b :: l3) with ((l1 ++ b :: l2) ++ b :: l3) by (by rewrite <-app_assoc).
    rewrite insert_mid, <-app_assoc. simpl. apply Permutation_app_head.
    rewrite Permutation_middle. symmetry. rewrite Permutation_middle. apply Permutation_app_head. constructor.
  - rewrite list_insert_insert. rewrite list_insert_id by congruence. done.
  - rewrite list_insert_commute by lia. destruct (H j i b a Hij Hj Hi) as (l1 & l2 & l3 & -> & -> & ->). rewrite insert_mid.
    replace (length (l1 ++ b :: l2)) with (length (l1 ++ a :: l2)) by (rewrite !app_length; done).
    replace (l1 ++ a :: l2 ++ a :: l3) with ((l1 ++ a :: l2) ++ a :: l3) by (by rewrite <-app_assoc).
    rewrite insert_mid, <-app_assoc. simpl. apply Permutation_app_head.
    rewrite Permutation_middle. symmetry. rewrite Permutation_middle. apply Permutation_app_head. constructor.
Qed.
Lemma swap_perm {A} i j (l l' : list A) : swap i j l = Some l' -> l' ≡ₚ l.
Proof.
  unfold swap. destruct (l !! i) as [a|] eqn:Ea; [|done]. destruct (l !! j) as [b|] eqn:Eb; [|done]. simpl. intros [= <-].
  by apply swap_values.
Qed.
Lemma np_shuffle_perm {A} d (l l' : list A) : np_shuffle d l = Some l' -> l' ≡ₚ l.
Proof.
  unfold np_shuffle. generalize (seq 1 (length l - 1)) as is. intros is. revert l'.
  induction is as [|i is IH]; intros l'; simpl; [by intros [= <-]|].
  destruct (foldr _ _ is) as [l1|]; [|done]. simpl. intros H%swap_perm. rewrite H. by apply IH.
Qed.
Lemma np_shuffle_total {A} d (l : list A) : good_draws d -> is_Some (np_shuffle d l).
Proof.
  intros Hd. unfold np_shuffle.
  assert (forall is, (forall i, i ∈ is -> i < length l) ->
    exists l', foldr (fun i acc => l ← acc; swap i (d i) l) (Some l) is = Some l' /\ length l' = length l) as H.
  { induction is as [|i is IH]; intros His; simpl; [eauto|]. destruct IH as (l1 & -> & Hl); [intros; apply His; by right|]. simpl.
    assert (i < length l1) as Hi by (rewrite Hl; apply His; by left). specialize (Hd i).
    destruct (lookup_lt_is_Some_2 l1 i) as [a Ha]; [lia|]. destruct (lookup_lt_is_Some_2 l1 (d i)) as [b Hb]; [lia|].
    unfold swap. rewrite Ha, Hb. simpl. eexists. split; [done|]. by rewrite !insert_length. }
  destruct (H (seq 1 (length l - 1))) as (l' & -> & _); [|eauto]. intros i Hi. apply elem_of_seq in Hi. lia.
Qed.

(** Every permutation can come out. *)
Lemma foldr_draws {A} (d d' : nat -> nat) (l : list A) is : (forall i, i ∈ is -> d i = d' i) ->
  foldr (fun i acc => l ← acc; swap i (d i) l) (Some l) is = foldr (fun i acc => l ← acc; swap i (d' i) l) (Some l) is.
Proof.
  induction is as [|i is IH]; intros H; simpl; [done|]. rewrite IH by (intros; apply H; by right). by rewrite (H i) by left.
Qed.
Lemma shuffle_prefix {A} k : forall (l1 p1 r : list A), length l1 = S k -> p1 ≡ₚ l1 ->
  exists d, good_draws d /\ foldr (fun i acc => l ← acc; swap i (d i) l) (Some (l1 ++ r)) (seq 1 k) = Some (p1 ++ r).
Proof.
  induction k as [|k IH]; intros l1 p1 r Hl Hp.
  - exists (fun _ => 0). split; [intros i; lia|]. simpl. do 2 f_equal.
    destruct l1 as [|x [|]]; try done. apply Permutation_singleton_r in Hp as ->. done.
  - assert (length p1 = S (S k)) as Hlp by (by rewrite Hp).
    destruct p1 as [|x p' _] using rev_ind; [done|]. rewrite app_length in Hlp. simpl in Hlp.
    assert (x ∈ l1) as Hx by (rewrite <-Hp; apply elem_of_app; right; by left).
    apply elem_of_list_lookup in Hx as [j Hj].
    destruct (lookup_lt_is_Some_2 l1 (S k)) as [a Ha]; [lia|].
    set (l2 := <[j := a]> (<[S k := x]> l1)).
    assert (Hl2 : l2 ≡ₚ l1) by (by apply swap_values).
    assert (Hk : l2 !! S k = Some x).
    { unfold l2. destruct (decide (j = S k)) as [->|Hne].
      - rewrite list_lookup_insert by (rewrite insert_length; lia). congruence.
      - rewrite list_lookup_insert_ne by done. apply list_lookup_insert. lia. }
    assert (Hlen2 : length l2 = S (S k)) by (by rewrite Hl2).
    assert (exists l3, l2 = l3 ++ [x] /\ length l3 = S k) as (l3 & E & Hl3).
    { exists (take (S k) l2). split; [|rewrite take_length; lia].
      rewrite <-(take_drop_middle l2 (S k) x Hk) at 1. rewrite drop_ge by lia. done. }
    destruct (IH l3 p' (x :: r)) as (d' & Hd' & Hf); [done| |].
    { rewrite E in Hl2. rewrite <-Hl2 in Hp. by apply Permutation_app_inv_r in Hp. }
    exists (fun i => if decide (i = S k) then j else d' i). split.
    { intros i. case_decide as Hi; [|apply Hd']. apply lookup_lt_Some in Hj. lia. }
    assert (Hsw : swap (S k) j (l1 ++ r) = Some (l3 ++ x :: r)).
    { unfold swap. rewrite (lookup_app_l l1 r (S k)) by lia. rewrite Ha. cbn [mbind option_bind].
      rewrite (lookup_app_l l1 r j) by (by eapply lookup_lt_Some). rewrite Hj. cbn [mbind option_bind].
      rewrite insert_app_l by lia. rewrite insert_app_l by (rewrite insert_length; by eapply lookup_lt_Some).
      change (<[j := a]> (<[S k := x]> l1)) with l2. by rewrite E, <-app_assoc. }
    rewrite seq_S, foldr_app. change (1 + k) with (S k). cbn [foldr mbind option_bind]. rewrite decide_True by done. rewrite Hsw.
    rewrite (foldr_draws _ d').
    + rewrite Hf. by rewrite <-app_assoc.
    + intros i Hi. apply elem_of_seq in Hi. by rewrite decide_False by lia.
Qed.
Lemma np_shuffle_reach {A} (l p : list A) : p ≡ₚ l -> exists d, good_draws d /\ np_shuffle d l = Some p.
Proof.
  intros Hp. unfold np_shuffle. destruct (length l) as [|k] eqn:E.
  - apply nil_length_inv in E as ->. apply Permutation_nil_r in Hp as ->. exists (fun _ => 0). split; [intros i; lia|done].
  - destruct (shuffle_prefix k l p [] E Hp) as (d & Hd & H). rewrite !app_nil_r in H. exists d.
    replace (S k - 1) with k by lia. done.
Qed.

(** On a list of labels. *)
Lemma len_pos_spec a : len_pos a = true <-> has_length a.
Proof. destruct a; simpl; try done; by rewrite negb_true_iff, bool_decide_eq_false. Qed.
Lemma swap_copy_perm i j l l' : swap_copy i j l = Ok l' -> l' ≡ₚ l.
Proof.
  unfold swap_copy. intros H. apply bind_ok in H as (a & Ha%of_opt_ok & H). apply bind_ok in H as (b & Hb%of_opt_ok & H).
  apply bind_ok in H as (b' & Hb'%of_opt_ok & H). apply bind_ok in H as (a' & Ha'%of_opt_ok & [= <-]).
  assert (a' = a) as -> by (destruct a; simpl in Ha'; congruence). assert (b' = b) as -> by (destruct b; simpl in Hb'; congruence).
  by apply swap_values.
Qed.
Lemma shuffle_list_perm d l l' : np_shuffle_list d l = Ok l' -> l' ≡ₚ l.
Proof.
  destruct l as [|a l]; [by intros [= <-]|]. unfold np_shuffle_list. destruct (len_pos a).
  - generalize (seq 1 (length (a :: l) - 1)) as is. intros is. revert l'.
    induction is as [|i is IH]; intros l'; simpl; [by intros [= <-]|].
    intros H. apply bind_ok in H as (l1 & H1 & H%swap_copy_perm). rewrite H. by apply IH.
  - intros H%of_opt_ok. by apply np_shuffle_perm in H.
Qed.
Lemma shuffle_list_total d l : good_draws d -> exchangeable l -> exists l', np_shuffle_list d l = Ok l'.
Proof.
  intros Hd Hex. destruct l as [|a l]; [by exists []|]. unfold np_shuffle_list. destruct (len_pos a) eqn:El.
  - apply len_pos_spec in El. pose proof (Hex a eq_refl El) as Hs. set (l0 := a :: l) in *. clearbody l0. clear Hex a l El.
    assert (forall is, (forall i, i ∈ is -> i < length l0) ->
      exists l', foldr (fun i acc => l ← acc; swap_copy i (d i) l) (Ok l0) is = Ok l' /\ l' ≡ₚ l0) as H.
    { induction is as [|i is IH]; intros His; simpl; [eauto|]. destruct IH as (l1 & -> & Hl); [intros; apply His; by right|].
      cbn [mbind res_bind]. assert (i < length l1) as Hi by (rewrite Hl; apply His; by left). pose proof (Hd i) as Hdi.
      destruct (lookup_lt_is_Some_2 l1 i) as [a Ha]; [lia|]. destruct (lookup_lt_is_Some_2 l1 (d i)) as [b Hb]; [lia|].
      assert (Hs1 : Forall has_slices l1) by (by rewrite Hl).
      assert (slice_copy a = Some a) as Ea.
      { pose proof (Forall_lookup_1 _ _ _ _ Hs1 Ha) as Hsa. by destruct a. }
      assert (slice_copy b = Some b) as Eb.
      { pose proof (Forall_lookup_1 _ _ _ _ Hs1 Hb) as Hsb. by destruct b. }
      unfold swap_copy. rewrite Ha, Hb. simpl. rewrite Eb. simpl. rewrite Ea. simpl. eexists. split; [done|].
      rewrite <-Hl. by apply swap_values. }
    destruct (H (seq 1 (length l0 - 1))) as (l' & -> & _); [|eauto]. intros i Hi. apply elem_of_seq in Hi. lia.
  - destruct (np_shuffle_total d (a :: l) Hd) as [l' ->]. simpl. eauto.
Qed.

(** * Shuffling data *)

Lemma Forall3_insert {A B C} (P : A -> B -> C -> Prop) l k k' i x y z :
  Forall3 P l k k' -> P x y z -> Forall3 P (<[i := x]> l) (<[i := y]> k) (<[i := z]> k').
Proof. intros H Hp. revert i. induction H; intros [|i]; simpl; constructor; auto. Qed.

Definition identity_perms (y : larry) : list (list nat) := (fun l => seq 0 (length l)) <$> llabel y.
Lemma data_permuted_refl y : valid y -> data_permuted y y (identity_perms y).
Proof.
  intros Hv. unfold data_permuted, identity_perms. split_and!; try done.
  - apply Forall2_fmap_l. apply Forall_Forall2_diag, Forall_true. intros l. simpl. apply Permutation_refl.
  - intros idx idx' ls ls' H H' H3. f_equal. assert (idx' = idx) as ->.
    { revert H3. revert H H'. generalize (llabel y). intros L H H'. revert idx idx' H H'. clear Hv. revert ls ls'.
      induction L as [|l L IH]; intros ls ls' idx idx' H H' H3; simpl in H3; inversion H3; subst; [done|].
      inversion H; inversion H'; subst. f_equal; [|by eapply IH].
      match goal with Hx : seq _ _ !! _ = Some _ |- _ => apply lookup_seq in Hx as [-> _] end. done. }
    clear H3. revert H H'. generalize (llabel y). intros L H. revert ls'. induction H; intros ls' H'; inversion H'; subst; [done|].
    f_equal; [congruence|auto].
Qed.
Lemma shuffle_axis_step d y z z' pss ax :
  valid y -> data_permuted y z pss -> pss !! ax = Some (seq 0 (length (default [] (llabel y !! ax)))) -> shuffle_axis d z ax = Ok z' ->
  exists ps, np_shuffle d (seq 0 (length (default [] (llabel y !! ax)))) = Some ps /\ data_permuted y z' (<[ax := ps]> pss).
Proof.
  intros Hv (Hvz & HL & Hd & Hps & Hc) Hax H. unfold shuffle_axis in H.
  apply bind_ok in H as (n & Hn%of_opt_ok & H). apply bind_ok in H as (ps & Hsh%of_opt_ok & H).
  apply bind_ok in H as (b & Hb%of_opt_ok & [= <-]). pose proof Hsh as Hsh0. apply np_shuffle_perm in Hsh.
  assert (exists l, llabel y !! ax = Some l) as [l Hl].
  { apply lookup_lt_is_Some_2. rewrite <-(Forall2_length _ _ _ Hps). by eapply lookup_lt_Some. }
  rewrite Hl in Hax. simpl in Hax.
  assert (n = length l) as ->.
  { assert (H' : llabel z !! ax = Some l) by congruence. rewrite (valid_axis_len z ax l Hvz H') in Hn. congruence. }
  assert (Hbwf : nda_wf (Nda (ldtype z) b)).
  { unfold take_pos in Hb. rewrite Hn in Hb. simpl in Hb. case_decide; [|done]. eapply gather_nda_wf; [|done].
    destruct Hvz as [Hw _]. unfold ldtype, larr. by destruct (lx z). }
  apply take_pos_Some in Hb as (n & Hn' & Hids & Hs & Hbw & Hg).
  assert (Hlen : length ps = length l) by (rewrite Hsh; apply seq_length).
  assert (Hsb : shape b = lshape z).
  { rewrite Hs, Hlen. unfold axlen in Hn. change (shape (larr z)) with (lshape z) in *. rewrite list_insert_id; done. }
  assert (Hv' : valid (Larry (Nda (ldtype z) b) (llabel z))).
  { split_and!; try done; simpl; [by destruct Hvz as (_ & ? & _)| |by apply valid_nodup].
    rewrite (valid_shape z Hvz), <-Hsb. done. }
  exists ps. split; [by rewrite Hl|]. unfold data_permuted. split_and!; try done.
  - rewrite <-(list_insert_id (llabel y) ax l Hl). by apply Forall2_insert.
  - intros idx idx' ls ls' H H' H3.
    destruct (labels_at_lookup_is_Some _ _ _ ax l H Hl) as (i & a & Hi & Hla & Hil).
    destruct (labels_at_lookup_is_Some _ _ _ ax l H' Hl) as (i' & a' & Hi' & Hla' & Hil').
    assert (Hpi : ps !! i = Some i').
    { eapply (Forall3_lookup_lmr (fun ps i i' => ps !! i = Some i') _ _ _ ax ps i i'); [exact H3| |done..]. apply list_lookup_insert. by eapply lookup_lt_Some. }
    set (idx0 := <[ax := i']> idx). set (ls0 := <[ax := a']> ls).
    assert (H0 : labels_at (llabel y) idx0 ls0).
    { rewrite <-(list_insert_id (llabel y) ax l Hl). by apply labels_at_insert. }
    rewrite <-(Hc idx0 idx' ls0 ls' H0 H').
    + rewrite <-HL in H, H0.
      destruct (valid_cell_at _ idx ls Hv' H) as (v & Hg1 & ->). destruct (valid_cell_at z idx0 ls0 Hvz H0) as (w & Hg2 & ->).
      change (aget b idx = Some v) in Hg1. rewrite (Hg idx i i') in Hg1; [fold idx0 in Hg1; by rewrite Hg1 in Hg2| |done|done].
      by eapply get_in_range.
    + apply (Forall3_insert (fun ps i i' => ps !! i = Some i') _ _ _ ax (seq 0 (length l)) i' i') in H3.
      * rewrite list_insert_insert, list_insert_id in H3 by done. by rewrite (list_insert_id idx') in H3.
      * apply lookup_seq. split; [done|]. by eapply lookup_lt_Some.
Qed.
Lemma identity_lookup y ax l : llabel y !! ax = Some l -> identity_perms y !! ax = Some (seq 0 (length l)).
Proof. intros H. unfold identity_perms. by rewrite list_lookup_fmap, H. Qed.
Lemma shuffle_fold_step d y axs : forall z z' pss,
  valid y -> data_permuted y z pss -> NoDup axs -> (forall ax, ax ∈ axs -> pss !! ax = Some (seq 0 (length (default [] (llabel y !! ax))))) ->
  foldM (fun y ax => shuffle_axis (d ax) y ax) z axs = Ok z' -> exists pss', data_permuted y z' pss'.
Proof.
  induction axs as [|ax axs IH]; intros z z' pss Hv Hz Hnd Hid H; simpl in H.
  - injection H as <-. eauto.
  - apply NoDup_cons in Hnd as [Hni Hnd]. destruct (shuffle_axis (d ax) z ax) as [z1|] eqn:E; [|done].
    destruct (shuffle_axis_step (d ax) y z z1 pss ax Hv Hz) as (ps & _ & Hps); [apply Hid; by left|done|].
    eapply IH; [done|exact Hps|done| |done]. intros ax' Hin. rewrite list_lookup_insert_ne by (by intros ->). apply Hid. by right.
Qed.
Theorem shuffle_spec d y axis z :
  valid y -> larry_shuffle d y axis = Ok z -> exists pss, data_permuted y z pss /\ only_selected y axis pss.
Proof.
  intros Hv H. pose proof (data_permuted_refl y Hv) as Hr. destruct axis as [axis|]; simpl in H.
  - apply bind_ok in H as (ax & Hax%of_opt_ok & H). rewrite <-(valid_ndim y Hv) in Hax.
    assert (ax < length (llabel y)) as Hlt by (by eapply py_index_lt).
    apply lookup_lt_is_Some_2 in Hlt as [l Hl].
    destruct (shuffle_axis_step (d ax) y y z (identity_perms y) ax Hv Hr) as (ps & _ & Hps); [|done|].
    { rewrite Hl. by apply identity_lookup. }
    exists (<[ax := ps]> (identity_perms y)). split; [done|]. intros ax' ps' Hp Hno.
    destruct (decide (ax' = ax)) as [->|Hne].
    + exfalso. apply Hno. simpl. by apply py_index_Some in Hax.
    + rewrite list_lookup_insert_ne in Hp by done. unfold identity_perms in Hp. rewrite list_lookup_fmap in Hp.
      destruct (llabel y !! ax') as [l'|]; [|done]. simpl in Hp. injection Hp as <-. by rewrite seq_length.
  - destruct (shuffle_fold_step d y (seq 0 (lndim y)) y z (identity_perms y) Hv Hr) as [pss Hp]; [apply NoDup_seq| |done|].
    { intros ax Hax. apply elem_of_seq in Hax as [_ Hlt]. rewrite <-(valid_ndim y Hv) in Hlt.
      apply lookup_lt_is_Some_2 in Hlt as [l Hl]. rewrite Hl. by apply identity_lookup. }
    exists pss. split; [done|]. intros ax ps Hps Hno. exfalso. apply Hno. simpl.
    destruct Hp as (_ & _ & _ & Hp & _). rewrite <-(Forall2_length _ _ _ Hp). by eapply lookup_lt_Some.
Qed.
Lemma shuffle_axis_total d y ax : valid y -> good_draws d -> ax < lndim y ->
  exists z, shuffle_axis d y ax = Ok z /\ lndim z = lndim y.
Proof.
  intros Hv Hd Hax. rewrite <-(valid_ndim y Hv) in Hax. apply lookup_lt_is_Some_2 in Hax as [l Hl].
  unfold shuffle_axis. rewrite (valid_axis_len y ax l Hv Hl). cbn [of_opt mbind res_bind].
  destruct (np_shuffle_total d (seq 0 (length l)) Hd) as [ps Hps]. rewrite Hps. cbn [of_opt mbind res_bind].
  apply np_shuffle_perm in Hps.
  destruct (take_pos (larr y) ps ax) as [b|] eqn:E.
  - simpl. eexists. split; [done|]. apply take_pos_Some in E as (n & _ & _ & Hs & _). change (length (shape b) = length (lshape y)).
    rewrite Hs, insert_length. done.
  - exfalso. assert (is_Some (take_pos (larr y) ps ax)) as [? ?]; [|congruence].
    apply take_pos_is_Some; [by apply valid_wf|]. exists (length l). split; [by apply valid_axis_len|].
    rewrite Hps. apply Forall_forall. intros i Hi. apply elem_of_seq in Hi. lia.
Qed.
Theorem shuffle_ok d y axis :
  valid y -> (forall ax, good_draws (d ax)) -> match axis with Some a => exists ax, axis_is y a ax | None => True end ->
  exists z, larry_shuffle d y axis = Ok z.
Proof.
  intros Hv Hd Hax. destruct axis as [axis|]; simpl.
  - destruct Hax as [ax Hax]. rewrite <-(valid_ndim y Hv). rewrite (proj2 (py_index_Some _ _ _) Hax). simpl.
    destruct (shuffle_axis_total (d ax) y ax Hv (Hd ax)) as (z & Hz & _); [|eauto]. rewrite <-(valid_ndim y Hv). by destruct Hax.
  - assert (forall axs z, valid z -> (forall ax, ax ∈ axs -> ax < lndim z) ->
      exists z', foldM (fun y ax => shuffle_axis (d ax) y ax) z axs = Ok z') as H.
    { induction axs as [|ax axs IH]; intros z Hvz Hin; simpl; [eauto|].
      destruct (shuffle_axis_total (d ax) z ax Hvz (Hd ax)) as (z1 & E & Hnd); [apply Hin; by left|]. rewrite E.
      apply IH; [|intros; rewrite Hnd; apply Hin; by right].
      assert (ax < length (llabel z)) as Hlt by (rewrite (valid_ndim z Hvz); apply Hin; by left).
      apply lookup_lt_is_Some_2 in Hlt as [l Hl].
      destruct (shuffle_axis_step (d ax) z z z1 (identity_perms z) ax Hvz (data_permuted_refl z Hvz)) as (ps & _ & Hp & _); [|done|done].
      rewrite Hl. by apply identity_lookup. }
    apply H; [done|]. intros ax Hax'. apply elem_of_seq in Hax'. lia.
Qed.
Lemma shuffle_bad_axis d y a : valid y -> ~ (exists ax, axis_is y a ax) -> larry_shuffle d y (Some a) = Err ValueError.
Proof.
  intros Hv Hno. simpl. rewrite <-(valid_ndim y Hv). destruct (py_index _ a) as [ax|] eqn:E; [|done].
  exfalso. apply Hno. exists ax. by apply py_index_Some in E.
Qed.
(** Every permutation of the slices is possible. *)
Theorem shuffle_reach y a ax l ps :
  valid y -> axis_is y a ax -> llabel y !! ax = Some l -> ps ≡ₚ seq 0 (length l) ->
  exists d z, (forall ax, good_draws (d ax)) /\ larry_shuffle d y (Some a) = Ok z /\
    data_permuted y z (<[ax := ps]> ((fun l => seq 0 (length l)) <$> llabel y)).
Proof.
  intros Hv Hax Hl Hps. destruct (np_shuffle_reach (seq 0 (length l)) ps Hps) as (d & Hd & Hsh).
  destruct (shuffle_ok (fun _ => d) y (Some a) Hv (fun _ => Hd) (ex_intro _ ax Hax)) as [z Hz].
  exists (fun _ => d), z. split_and!; try done. simpl in Hz. rewrite <-(valid_ndim y Hv) in Hz.
  rewrite (proj2 (py_index_Some _ _ _) Hax) in Hz. simpl in Hz.
  destruct (shuffle_axis_step d y y z (identity_perms y) ax Hv (data_permuted_refl y Hv)) as (ps' & Hp & H); [|done|].
  { rewrite Hl. by apply identity_lookup. }
  rewrite Hl in Hp. simpl in Hp. rewrite Hsh in Hp. injection Hp as <-. done.
Qed.

(** * Shuffling labels *)

Lemma axis_is_fun y a i j : axis_is y a i -> axis_is y a j -> i = j.
Proof. intros [? ?] [? ?]. lia. Qed.
Lemma relabel_valid y ax l l' : valid y -> llabel y !! ax = Some l -> l' ≡ₚ l -> valid (Larry (lx y) (<[ax := l']> (llabel y))).
Proof.
  intros (Hw & Hne & Hs & Hnd) Hl Hp. split_and!; try done; simpl.
  - intros H. apply (f_equal length) in H. rewrite insert_length in H. by destruct (llabel y).
  - change (lshape (Larry (lx y) (<[ax := l']> (llabel y)))) with (lshape y). rewrite <-Hs, list_fmap_insert.
    apply list_insert_id. rewrite list_lookup_fmap, Hl. simpl. by rewrite Hp.
  - apply Forall_insert; [done|]. rewrite Hp. exact (Forall_lookup_1 _ _ _ _ Hnd Hl).
Qed.
Lemma shufflelabel_axis_spec d y ax z : valid y -> shufflelabel_axis d y ax = Ok z ->
  exists l l', llabel y !! ax = Some l /\ l' ≡ₚ l /\ z = Larry (lx y) (<[ax := l']> (llabel y)) /\ valid z.
Proof.
  intros Hv H. unfold shufflelabel_axis in H. apply bind_ok in H as (l & Hl%axis_label_ok & H).
  apply bind_ok in H as (l' & Hp%shuffle_list_perm & [= <-]). exists l, l'. split_and!; try done. by eapply relabel_valid.
Qed.
Theorem shufflelabel_spec d y axis z :
  valid y -> larry_shufflelabel d y axis = Ok z -> lx z = lx y /\ valid z /\ labels_permuted y z axis.
Proof.
  intros Hv H. destruct axis as [axis|]; simpl in H.
  - apply bind_ok in H as (ax & Hax%py_axis_is & H). apply shufflelabel_axis_spec in H as (l & l' & Hl & Hp & -> & Hvz); [|done].
    split_and!; [done..|]. split; [simpl; by rewrite insert_length|]. intros ax' m m' Hm Hm'. simpl in Hm'.
    destruct (decide (ax' = ax)) as [->|Hne].
    + rewrite list_lookup_insert in Hm' by (by eapply lookup_lt_Some). simplify_eq. split; [done|]. intros Hno. exfalso. by apply Hno.
    + rewrite list_lookup_insert_ne in Hm' by done. simplify_eq. done.
  - apply (foldM_inv (fun z => lx z = lx y /\ valid z /\ labels_permuted y z None)) in H; [done| |].
    + split_and!; try done. split; [done|]. intros. simplify_eq. done.
    + intros s ax s' _ (Hx & Hvs & Hlen & Hlp) E.
      apply shufflelabel_axis_spec in E as (l & l' & Hl & Hp & -> & Hvz); [|done]. split_and!; try done.
      split; [simpl; by rewrite insert_length|]. intros ax' m m' Hm Hm'. simpl in Hm'.
      assert (ax' < length (llabel y)) as Hlt by (by eapply lookup_lt_Some).
      split; [|intros Hno; exfalso; by apply Hno].
      destruct (decide (ax' = ax)) as [->|Hne].
      * rewrite list_lookup_insert in Hm' by (by eapply lookup_lt_Some). simplify_eq.
        destruct (Hlp ax m l Hm Hl) as [Hml _]. by rewrite Hp.
      * rewrite list_lookup_insert_ne in Hm' by done. by destruct (Hlp ax' m m' Hm Hm') as [? _].
Qed.
Lemma shufflelabel_axis_total d y ax l : valid y -> good_draws d -> llabel y !! ax = Some l -> exchangeable l ->
  exists z, shufflelabel_axis d y ax = Ok z.
Proof.
  intros Hv Hd Hl Hex. unfold shufflelabel_axis. rewrite (proj2 (axis_label_ok y ax l) Hl). cbn [mbind res_bind].
  destruct (shuffle_list_total d l Hd Hex) as [l' ->]. simpl. eauto.
Qed.
Theorem shufflelabel_ok d y axis :
  valid y -> (forall ax, good_draws (d ax)) -> match axis with Some a => exists ax, axis_is y a ax | None => True end ->
  (forall ax l, axis_selected y axis ax -> llabel y !! ax = Some l -> exchangeable l) ->
  exists z, larry_shufflelabel d y axis = Ok z.
Proof.
  intros Hv Hd Hax Hex. destruct axis as [axis|]; simpl.
  - destruct Hax as [ax Hax]. rewrite (proj2 (py_axis_is y axis ax) Hax). cbn [mbind res_bind].
    destruct (lookup_lt_is_Some_2 (llabel y) ax) as [l Hl]; [by destruct Hax|]. eapply shufflelabel_axis_total; eauto.
  - assert (forall axs z, valid z -> NoDup axs -> (forall ax, ax ∈ axs -> exists l, llabel z !! ax = Some l /\ exchangeable l) ->
      exists z', foldM (fun y ax => shufflelabel_axis (d ax) y ax) z axs = Ok z') as H.
    { induction axs as [|ax axs IH]; intros z Hvz Hnd Hin; simpl; [eauto|]. apply NoDup_cons in Hnd as [Hni Hnd].
      destruct (Hin ax) as (l & Hl & He); [by left|].
      destruct (shufflelabel_axis_total (d ax) z ax l Hvz (Hd ax) Hl He) as [z1 E]. rewrite E.
      apply shufflelabel_axis_spec in E as (l0 & l' & Hl0 & Hp & -> & Hvz1); [|done].
      apply IH; [done..|]. intros ax' Hin'. destruct (Hin ax') as (l2 & Hl2 & He2); [by right|]. exists l2. split; [|done]. simpl.
      rewrite list_lookup_insert_ne; [done|]. by intros ->. }
    apply H; [done|apply NoDup_seq|]. intros ax Hax'. apply elem_of_seq in Hax' as [_ Hlt]. rewrite <-(valid_ndim y Hv) in Hlt.
    destruct (lookup_lt_is_Some_2 (llabel y) ax Hlt) as [l Hl]. exists l. split; [done|]. by eapply Hex.
Qed.
(** Conversely every label is passed through a slice. *)
Lemma slice_copy_slices a b : slice_copy a = Some b -> has_slices a.
Proof. by destruct a. Qed.
Lemma shuffle_list_only d l l' : np_shuffle_list d l = Ok l' -> exchangeable l.
Proof.
  intros H a Ha Hlen. destruct l as [|a0 l]; [done|]. injection Ha as ->. unfold np_shuffle_list in H.
  rewrite (proj2 (len_pos_spec a) Hlen) in H. set (l0 := a :: l) in *.
  assert (G : forall m s r, s + m = length l0 -> foldr (fun i acc => l ← acc; swap_copy i (d i) l) (Ok l0) (seq s m) = Ok r ->
    forall p b, l0 !! p = Some b -> ~ has_slices b -> p < s /\ r !! p = Some b).
  { induction m as [|m IH]; intros s r Hsm; cbn [seq foldr].
    - intros [= <-] p b Hp _. split; [|done]. apply lookup_lt_Some in Hp. lia.
    - intros (r1 & Hr1 & Hsw)%bind_ok p b Hp Hb. destruct (IH (S s) r1 ltac:(lia) Hr1 p b Hp Hb) as [Hlt Hr].
      unfold swap_copy in Hsw. apply bind_ok in Hsw as (u & Hu%of_opt_ok & Hsw). apply bind_ok in Hsw as (v & Hv%of_opt_ok & Hsw).
      apply bind_ok in Hsw as (v' & Hv'%of_opt_ok%slice_copy_slices & Hsw).
      apply bind_ok in Hsw as (u' & Hu'%of_opt_ok%slice_copy_slices & [= <-]).
      assert (p <> s) by (intros ->; simplify_eq; done). assert (p <> d s) by (intros ->; simplify_eq; done).
      split; [lia|]. by rewrite !list_lookup_insert_ne by done. }
  apply Forall_forall. intros b [p Hp]%elem_of_list_lookup.
  assert (Hdec : has_slices b \/ ~ has_slices b) by (destruct b; simpl; tauto).
  destruct Hdec as [?|Hb]; [done|]. destruct (G (length l0 - 1) 1 l' ltac:(cbn; lia) H p b Hp Hb) as [Hlt _].
  assert (p = 0) as -> by lia. cbn in Hp. injection Hp as <-. by destruct a.
Qed.
Lemma shuffle_list_err d l e : good_draws d -> np_shuffle_list d l = Err e -> e = TypeError.
Proof.
  intros Hd H. destruct l as [|a l]; [done|]. unfold np_shuffle_list in H. destruct (len_pos a).
  2:{ destruct (np_shuffle_total d (a :: l) Hd) as [l' E]. by rewrite E in H. }
  set (l0 := a :: l) in *. clearbody l0. clear a l.
  assert (G : forall is, (forall i, i ∈ is -> i < length l0) -> forall e, foldr (fun i acc => l ← acc; swap_copy i (d i) l) (Ok l0) is = Err e ->
    e = TypeError).
  { clear H e. induction is as [|i is IH]; intros His e; cbn [foldr]; [done|]. intros [H|(l1 & H1 & H)]%bind_err.
    - apply (IH ltac:(intros; apply His; by right) e H).
    - assert (Hl : l1 ≡ₚ l0).
      { clear -H1. revert l1 H1. induction is as [|i is IH]; intros l1; cbn [foldr]; [by intros [= <-]|].
        intros H. apply bind_ok in H as (l2 & H2 & H%swap_copy_perm). rewrite H. by apply IH. }
      assert (i < length l1) as Hi by (rewrite Hl; apply His; by left). pose proof (Hd i) as Hdi.
      destruct (lookup_lt_is_Some_2 l1 i) as [u Hu]; [lia|]. destruct (lookup_lt_is_Some_2 l1 (d i)) as [v Hv]; [lia|].
      unfold swap_copy in H. rewrite Hu, Hv in H. cbn [of_opt mbind res_bind] in H.
      destruct (slice_copy v); cbn in H; [|congruence]. destruct (slice_copy u); cbn in H; [done|congruence]. }
  apply (G (seq 1 (length l0 - 1))) in H; [done|]. intros i Hi. apply elem_of_seq in Hi. lia.
Qed.
Lemma exchangeable_selected d y axis z :
  valid y -> larry_shufflelabel d y axis = Ok z ->
  forall ax l, axis_selected y axis ax -> llabel y !! ax = Some l -> exchangeable l.
Proof.
  intros Hv H ax l Hs Hl. destruct axis as [axis|]; simpl in *.
  - apply bind_ok in H as (ax' & Hax & H). apply py_axis_is in Hs. rewrite Hax in Hs. injection Hs as <-.
    unfold shufflelabel_axis in H. apply bind_ok in H as (l0 & Hl0%axis_label_ok & H). apply bind_ok in H as (l' & H & _).
    simplify_eq. by eapply shuffle_list_only.
  - assert (G : forall axs y, NoDup axs -> foldM (fun y ax => shufflelabel_axis (d ax) y ax) y axs = Ok z -> ax ∈ axs ->
      llabel y !! ax = Some l -> exchangeable l).
    { clear. induction axs as [|a axs IH]; intros y Hnd H Hin Hl; [by apply elem_of_nil in Hin|]. apply NoDup_cons in Hnd as [Hni Hnd].
      cbn [foldM] in H. apply bind_ok in H as (y1 & H1 & H). unfold shufflelabel_axis in H1.
      apply bind_ok in H1 as (l0 & Hl0%axis_label_ok & H1). apply bind_ok in H1 as (l' & H1 & [= <-]).
      apply elem_of_cons in Hin as [-> |Hin]; [simplify_eq; by eapply shuffle_list_only|].
      eapply IH; [done|exact H|done|]. simpl. rewrite list_lookup_insert_ne; [done|]. by intros ->. }
    apply (G (seq 0 (lndim y)) y); [apply NoDup_seq|done| |done]. apply elem_of_seq. rewrite <-(valid_ndim y Hv). lia.
Qed.
Theorem shufflelabel_iff d y axis :
  valid y -> (forall ax, good_draws (d ax)) ->
  (exists z, larry_shufflelabel d y axis = Ok z) <->
  match axis with Some a => exists ax, axis_is y a ax | None => True end /\
  forall ax l, axis_selected y axis ax -> llabel y !! ax = Some l -> exchangeable l.
Proof.
  intros Hv Hd. split; [|intros [? ?]; by apply shufflelabel_ok]. intros [z H]. split; [|by eapply exchangeable_selected].
  destruct axis as [a|]; [|done]. simpl in H. apply bind_ok in H as (ax & Hax%py_axis_is & _). by exists ax.
Qed.
Theorem shufflelabel_mixed d y axis ax l :
  valid y -> (forall ax, good_draws (d ax)) -> axis_is y axis ax -> llabel y !! ax = Some l -> ~ exchangeable l ->
  larry_shufflelabel d y (Some axis) = Err TypeError.
Proof.
  intros Hv Hd Hax Hl Hn. simpl. rewrite (proj2 (py_axis_is y axis ax) Hax). cbn [mbind res_bind].
  unfold shufflelabel_axis. rewrite (proj2 (axis_label_ok y ax l) Hl). cbn [mbind res_bind].
  destruct (np_shuffle_list (d ax) l) as [l'|e] eqn:E; [by apply shuffle_list_only in E|]. by rewrite (shuffle_list_err _ _ _ (Hd ax) E).
Qed.
Lemma shufflelabel_mixed_refuted :
  exists y d, valid y /\ (forall ax, good_draws (d ax)) /\ larry_shufflelabel d y (Some 0%Z) = Err TypeError.
Proof.
  exists (Larry (Nda DInt (Arr [2] [VInt 1; VInt 2])) [[LStr "a"; LInt 1]]), (fun _ _ => 0).
  split_and!; [solve_valid|intros ? ?; lia|done].
Qed.

(** * cross_validation *)

Lemma Permutation_split3 {A} (l : list A) i j : i <= j ->
  (take i l ++ drop j l) ++ drop i (take j l) ≡ₚ l.
Proof.
  intros Hij. rewrite <-(take_drop j l) at 4. rewrite <-(take_drop i (take j l)) at 2. rewrite take_take, Nat.min_l by lia.
  rewrite <-!app_assoc. apply Permutation_app_head, Permutation_app_comm.
Qed.
Lemma concat_folds {A} (l : list A) m k : concat ((fun i => drop (m * i) (take (m * i + m) l)) <$> seq 0 k) = take (m * k) l.
Proof.
  induction k as [|k IH]; [by rewrite Nat.mul_0_r|].
  rewrite seq_S, fmap_app, concat_app, IH. simpl. rewrite app_nil_r.
  replace (m * S k) with (m * k + m) by lia.
  rewrite <-(take_drop (m * k) (take (m * k + m) l)) at 2. rewrite take_take, Nat.min_l by lia. done.
Qed.
Theorem cross_validation_spec shuffle n kfold :
  (forall l, shuffle l ≡ₚ l) -> (2 <= kfold)%Z -> (kfold <= n)%Z ->
  exists folds, cross_validation shuffle n kfold = Ok folds /\ is_folds (Z.to_nat n) (Z.to_nat kfold) folds.
Proof.
  intros Hsh Hk Hn. unfold cross_validation. rewrite !decide_False by lia.
  set (n' := Z.to_nat n). set (k' := Z.to_nat kfold). assert (2 <= k' <= n') as [Hk' Hkn] by lia.
  set (index := shuffle (seq 0 n')). assert (Hp : index ≡ₚ seq 0 n') by apply Hsh. assert (Hlen : length index = n') by (rewrite Hp; apply seq_length).
  set (m := n' / k'). set (r := n' - m * k').
  assert (Hdm : n' = k' * m + n' mod k') by (apply Nat.div_mod; lia).
  assert (Hr : r = n' mod k') by (unfold r; lia).
  assert (Hm : 1 <= m) by (apply Nat.div_le_lower_bound; lia).
  eexists. split; [done|]. split_and!.
  - by rewrite fmap_length, seq_length.
  - rewrite <-Hp. clear Hp. clearbody index.
    replace (seq 0 k') with (seq 0 (k' - 1) ++ [k' - 1]).
    2: { replace (seq 0 k') with (seq 0 (S (k' - 1))) by (f_equal; lia). by rewrite seq_S. }
    change (map ?f ?l) with (f <$> l). rewrite !fmap_app, concat_app.
    replace (_ <$> (_ <$> seq 0 (k' - 1))) with ((fun i => drop (m * i) (take (m * i + m) index)) <$> seq 0 (k' - 1)).
    + rewrite concat_folds. simpl. rewrite app_nil_r, decide_True by done.
      rewrite (take_ge index (m * (k' - 1) + m + r)) by nia. by rewrite take_drop.
    + rewrite <-list_fmap_compose. apply list_fmap_ext. intros i x Hx. apply lookup_seq in Hx as [-> Hx]. simpl. by rewrite decide_False by lia.
  - intros k train test Hf. change (map ?f ?l) with (f <$> l) in Hf. rewrite list_lookup_fmap in Hf.
    destruct (seq 0 k' !! k) as [k0|] eqn:E; [|done]. apply lookup_seq in E as [-> Hlt]. simpl in Hf. injection Hf as <- <-.
    set (idx2 := if decide (k = k' - 1) then m * k + m + r else m * k + m).
    assert (m * k + m <= idx2 /\ idx2 <= n') as [Hi1 Hi2].
    { unfold idx2. case_decide; [subst k|]; nia. }
    assert (Ht : length (drop (m * k) (take idx2 index)) = idx2 - m * k).
    { rewrite drop_length, take_length. lia. }
    split_and!.
    + intros H. rewrite H in Ht. simpl in Ht. lia.
    + rewrite Permutation_split3 by lia. done.
    + rewrite Ht. unfold idx2. fold m. case_decide; lia.
Qed.
Lemma cross_validation_bad shuffle n kfold : (n < 2 \/ kfold < 2 \/ kfold > n)%Z -> cross_validation shuffle n kfold = Err ValueError.
Proof. intros H. unfold cross_validation. do 2 (case_decide; [done|]). by rewrite decide_True by lia. Qed.

(** * bootstrap *)

Lemma left_out_spec n train i : i ∈ left_out n train <-> i < n /\ i ∉ train.
Proof. unfold left_out. rewrite elem_of_list_filter, elem_of_seq. naive_solver lia. Qed.
Lemma left_out_nodup n train : NoDup (left_out n train).
Proof. apply NoDup_filter, NoDup_seq. Qed.
Lemma left_out_pos n train : 0 < length (left_out n train) <-> leaves_out n train.
Proof.
  unfold leaves_out. setoid_rewrite <-left_out_spec. destruct (left_out n train) as [|i l]; simpl.
  - split; [lia|]. intros (i & Hi). by apply elem_of_nil in Hi.
  - split; [|lia]. intros _. exists i. by left.
Qed.
Lemma bootstrap_loop_spec draw n nboot fuel : forall k count ps,
  good_randint n draw -> count < nboot -> bootstrap_loop draw n nboot k count fuel = Some ps ->
  length ps = nboot - count /\ Forall (is_sample n) ps /\
  exists m, 0 < m /\ leaves_out n (draw (k + m - 1)) /\ ps.*1 = filter (fun t => 0 < length (left_out n t)) (draw <$> seq k m).
Proof.
  induction fuel as [|fuel IH]; intros k count ps Hd Hc H; [done|]. simpl in H.
  destruct (decide (0 < length (left_out n (draw k)))) as [Hp|Hp].
  - assert (Hs : is_sample n (draw k, left_out n (draw k))).
    { destruct (Hd k) as [Hl Hi]. unfold is_sample. simpl. split_and!; try done; [apply left_out_nodup|intros H0; rewrite H0 in Hp; simpl in Hp; lia|].
      apply left_out_spec. }
    case_decide as Hn.
    + injection H as <-. split_and!; [simpl; lia|by constructor|]. exists 1. split; [lia|]. split.
      * replace (k + 1 - 1) with k by lia. by apply left_out_pos.
      * change (draw <$> seq k 1) with [draw k]. by rewrite filter_cons_True.
    + destruct (bootstrap_loop draw n nboot (S k) (S count) fuel) as [rest|] eqn:E; [|done]. simpl in H. injection H as <-.
      apply IH in E as (Hl & Hf & m & Hm & Hlast & Hfst); [|done|lia]. split_and!; [simpl; lia|by constructor|].
      exists (S m). split; [lia|]. split; [by replace (k + S m - 1) with (S k + m - 1) by lia|].
      change (draw <$> seq k (S m)) with (draw k :: (draw <$> seq (S k) m)). rewrite filter_cons_True by done.
      rewrite <-Hfst. done.
  - case_decide as Hn; [lia|]. destruct (bootstrap_loop draw n nboot (S k) count fuel) as [rest|] eqn:E; [|done]. simpl in H. injection H as <-.
    apply IH in E as (Hl & Hf & m & Hm & Hlast & Hfst); [|done|lia]. split_and!; [done..|].
    exists (S m). split; [lia|]. split; [by replace (k + S m - 1) with (S k + m - 1) by lia|].
    change (draw <$> seq k (S m)) with (draw k :: (draw <$> seq (S k) m)). rewrite filter_cons_False by done. by rewrite Hfst.
Qed.
Lemma bootstrap_loop_total draw n nboot : (forall k, exists k', k <= k' /\ leaves_out n (draw k')) ->
  forall c k count, nboot - count = c -> 0 < c -> exists fuel ps, bootstrap_loop draw n nboot k count fuel = Some ps.
Proof.
  intros Hinf. assert (Hgap : forall g k count c, leaves_out n (draw (k + g)) -> nboot - count = S c ->
    (c = 0 \/ forall k, exists fuel ps, bootstrap_loop draw n nboot k (S count) fuel = Some ps) ->
    exists fuel ps, bootstrap_loop draw n nboot k count fuel = Some ps).
  { induction g as [|g IH]; intros k count c Hg Hc Hrest.
    - rewrite Nat.add_0_r in Hg. apply left_out_pos in Hg. destruct Hrest as [->|Hrest].
      + exists 1. simpl. rewrite !(decide_True (P := 0 < length (left_out n (draw k)))) by done. rewrite (decide_True (P := nboot <= S count)) by lia. eauto.
      + destruct (decide (c = 0)) as [->|Hc0].
        * exists 1. simpl. rewrite !(decide_True (P := 0 < length (left_out n (draw k)))) by done. rewrite (decide_True (P := nboot <= S count)) by lia. eauto.
        * destruct (Hrest (S k)) as (fuel & ps & E). exists (S fuel). simpl. rewrite !(decide_True (P := 0 < length (left_out n (draw k)))) by done.
          rewrite (decide_False (P := nboot <= S count)) by lia. rewrite E. simpl. eauto.
    - destruct (decide (0 < length (left_out n (draw k)))) as [Hp|Hp].
      + destruct Hrest as [->|Hrest].
        * exists 1. simpl. rewrite !(decide_True (P := 0 < length (left_out n (draw k)))) by done. rewrite (decide_True (P := nboot <= S count)) by lia. eauto.
        * destruct (decide (c = 0)) as [->|Hc0].
          -- exists 1. simpl. rewrite !(decide_True (P := 0 < length (left_out n (draw k)))) by done. rewrite (decide_True (P := nboot <= S count)) by lia. eauto.
          -- destruct (Hrest (S k)) as (fuel & ps & E). exists (S fuel). simpl. rewrite !(decide_True (P := 0 < length (left_out n (draw k)))) by done.
             rewrite (decide_False (P := nboot <= S count)) by lia. rewrite E. simpl. eauto.
      + destruct (IH (S k) count c) as (fuel & ps & E); [by replace (S k + g) with (k + S g) by lia|done|done|].
        exists (S fuel). simpl. rewrite !(decide_False (P := 0 < length (left_out n (draw k)))) by done. rewrite (decide_False (P := nboot <= count)) by lia. rewrite E. simpl. eauto. }
  induction c as [|c IH]; intros k count Hc Hpos; [lia|].
  destruct (Hinf k) as (k' & Hk & Hlo). apply (Hgap (k' - k) k count c); [by replace (k + (k' - k)) with k' by lia|done|].
  destruct (decide (c = 0)) as [->|]; [by left|]. right. intros k0. apply IH; lia.
Qed.
Lemma filter_fmap_draw {A B} (f : A -> B) (P : B -> Prop) `{!forall x, Decision (P x)} (l : list A) :
  filter P (f <$> l) = f <$> filter (fun x => P (f x)) l.
Proof.
  induction l as [|x l IH]; [done|]. rewrite fmap_cons. destruct (decide (P (f x))).
  - rewrite !filter_cons_True by done. by rewrite IH.
  - rewrite !filter_cons_False by done. done.
Qed.
Lemma filter_seq_sorted (P : nat -> Prop) `{!forall x, Decision (P x)} m : forall k, StronglySorted lt (filter P (seq k m)).
Proof.
  induction m as [|m IH]; intros k; [constructor|]. simpl seq. destruct (decide (P k)).
  - rewrite filter_cons_True by done. constructor; [done|]. apply Forall_forall. intros i Hi.
    apply elem_of_list_filter in Hi as [_ Hi]. apply elem_of_seq in Hi. lia.
  - by rewrite filter_cons_False.
Qed.
Theorem bootstrap_spec draw n nboot fuel ps :
  good_randint (Z.to_nat n) draw -> bootstrap draw n nboot fuel = Ok (Some ps) ->
  (2 <= n)%Z /\ (1 <= nboot)%Z /\ Z.of_nat (length ps) = nboot /\ Forall (is_sample (Z.to_nat n)) ps /\
  exists m ks, StronglySorted lt ks /\ ps.*1 = draw <$> ks /\ forall k, k ∈ ks <-> k < m /\ leaves_out (Z.to_nat n) (draw k).
Proof.
  intros Hd H. unfold bootstrap in H. destruct (decide (n < 2)%Z); [done|]. destruct (decide (nboot < 1)%Z); [done|].
  injection H as H. apply bootstrap_loop_spec in H as (Hl & Hf & m & Hm & Hlast & Hfst); [|done|lia].
  split_and!; [lia..|done|]. exists m, (filter (fun k => 0 < length (left_out (Z.to_nat n) (draw k))) (seq 0 m)). split_and!.
  - apply filter_seq_sorted.
  - by rewrite Hfst, filter_fmap_draw.
  - intros k. rewrite elem_of_list_filter, elem_of_seq, left_out_pos. naive_solver lia.
Qed.
Theorem bootstrap_ok draw n nboot :
  (2 <= n)%Z -> (1 <= nboot)%Z -> (forall k, exists k', k <= k' /\ leaves_out (Z.to_nat n) (draw k')) ->
  exists fuel ps, bootstrap draw n nboot fuel = Ok (Some ps).
Proof.
  intros Hn Hb Hinf. destruct (bootstrap_loop_total draw (Z.to_nat n) (Z.to_nat nboot) Hinf (Z.to_nat nboot) 0 0) as (fuel & ps & E); [lia..|].
  exists fuel, ps. unfold bootstrap. rewrite !decide_False by lia. by rewrite E.
Qed.
Lemma bootstrap_bad draw n nboot fuel : (n < 2 \/ nboot < 1)%Z -> bootstrap draw n nboot fuel = Err ValueError.
Proof. intros H. unfold bootstrap. case_decide; [done|]. by rewrite decide_True by lia. Qed.

(** * split *)

Lemma py_get_nat {A} (l : list A) p : py_get l (Z.of_nat p) = l !! p.
Proof.
  unfold py_get, py_index. destruct (decide (p < length l)) as [H|H].
  - rewrite decide_True by lia. simpl. by rewrite Nat2Z.id.
  - rewrite decide_False by lia. rewrite decide_False by lia. simpl. symmetry. apply lookup_ge_None. lia.
Qed.
Lemma mapM_py_get_nat {A} (l : list A) ps : mapM (py_get l) (Z.of_nat <$> ps) = mapM (l !!.) ps.
Proof.
  induction ps as [|p ps IH]; [done|]. cbn [fmap list_fmap mapM]. change (list_fmap nat Z Z.of_nat ps) with (Z.of_nat <$> ps).
  rewrite IH, py_get_nat. done.
Qed.
(** The label lists of the two parts. *)
Theorem split_spec y axis train test a b :
  valid y -> split_data y train test axis = Ok (a, b) ->
  exists ax l la lb, axis_is y axis ax /\ llabel y !! ax = Some l /\ mapM (l !!.) train = Some la /\ mapM (l !!.) test = Some lb /\
  valid a /\ valid b /\ ldtype a = ldtype y /\ ldtype b = ldtype y /\
  llabel a = <[ax := la]> (llabel y) /\ llabel b = <[ax := lb]> (llabel y) /\
  (forall ls x, ls !! ax = Some x -> x ∈ la -> cell a ls = cell y ls) /\
  (forall ls x, ls !! ax = Some x -> x ∈ lb -> cell b ls = cell y ls).
Proof.
  intros Hv H. unfold split_data in H. apply bind_ok in H as (a' & Ha & H). apply bind_ok in H as (b' & Hb & [= -> ->]).
  apply larry_take_spec in Ha as (ax & l & la & Hax & Hl & Hla & Hva & Hda & HLa & Hca); [|done].
  apply larry_take_spec in Hb as (ax' & l' & lb & Hax' & Hl' & Hlb & Hvb & Hdb & HLb & Hcb); [|done].
  assert (ax' = ax) as -> by congruence. assert (l' = l) as -> by congruence. rewrite mapM_py_get_nat in *.
  exists ax, l, la, lb. split_and!; try done; [by apply py_axis_is| |].
  - intros ls x Hx Hin. apply option_eq. intros v. rewrite Hca. naive_solver.
  - intros ls x Hx Hin. apply option_eq. intros v. rewrite Hcb. naive_solver.
Qed.
Lemma take_nat_ok y axis ax l ps :
  valid y -> axis_is y axis ax -> llabel y !! ax = Some l -> NoDup ps -> (forall p, p ∈ ps -> p < length l) ->
  exists z, larry_take y (Z.of_nat <$> ps) axis = Ok z.
Proof.
  intros Hv Hax Hl Hnd Hps. apply (larry_take_ok y _ axis ax l Hv); [by apply py_axis_is|done| |].
  - intros z Hz. apply elem_of_list_fmap in Hz as (p & -> & Hp). specialize (Hps p Hp). lia.
  - rewrite <-list_fmap_compose. apply (NoDup_fmap_2_strong _ _); [|done]. intros p q Hp Hq E. simpl in E.
    apply Hps in Hp. apply Hps in Hq. rewrite !Z.mod_small in E by lia. lia.
Qed.
Theorem split_folds y axis ax l folds k train test kfold :
  valid y -> axis_is y axis ax -> llabel y !! ax = Some l -> is_folds (length l) kfold folds -> folds !! k = Some (train, test) ->
  exists a b la lb, split_data y train test axis = Ok (a, b) /\ llabel a !! ax = Some la /\ llabel b !! ax = Some lb /\
    la ++ lb ≡ₚ l /\ (forall x, x ∈ l -> (x ∈ la /\ x ∉ lb) \/ (x ∈ lb /\ x ∉ la)) /\
    (forall ls v, cell y ls = Some v -> cell a ls = Some v \/ cell b ls = Some v).
Proof.
  intros Hv Hax Hl (_ & _ & Hf) Hk. destruct (Hf k train test Hk) as (_ & Hp & _).
  assert (Hnd : NoDup (train ++ test)) by (rewrite Hp; apply NoDup_seq).
  assert (Hlt : forall p, p ∈ train ++ test -> p < length l) by (intros p; rewrite Hp, elem_of_seq; lia).
  apply NoDup_app in Hnd as (Hnd1 & Hdis & Hnd2).
  destruct (take_nat_ok y axis ax l train) as [a Ha]; try done; [intros; apply Hlt, elem_of_app; by left|].
  destruct (take_nat_ok y axis ax l test) as [b Hb]; try done; [intros; apply Hlt, elem_of_app; by right|].
  assert (Hsp : split_data y train test axis = Ok (a, b)) by (unfold split_data; rewrite Ha, Hb; done).
  pose proof (split_spec _ _ _ _ _ _ Hv Hsp) as (ax' & l' & la & lb & Hax' & Hl' & Hla & Hlb & Hva & Hvb & _ & _ & HLa & HLb & Hca & Hcb).
  assert (ax' = ax) as -> by (by eapply axis_is_fun). assert (l' = l) as -> by congruence.
  assert (Hlen : ax < length (llabel y)) by (by eapply lookup_lt_Some).
  assert (Hpl : la ++ lb ≡ₚ l).
  { apply (perm_nodup_lookup l (train ++ test)); [done|]. apply mapM_Some. apply mapM_Some in Hla, Hlb. by apply Forall2_app. }
  assert (Hndl : NoDup l) by (exact (Forall_lookup_1 _ _ _ _ (valid_nodup y Hv) Hl)).
  rewrite <-Hpl in Hndl. apply NoDup_app in Hndl as (_ & Hd & _).
  exists a, b, la, lb. split_and!; try done.
  - rewrite HLa. by apply list_lookup_insert.
  - rewrite HLb. by apply list_lookup_insert.
  - intros x Hx. rewrite <-Hpl, elem_of_app in Hx. destruct Hx as [Hx|Hx]; [left|right]; (split; [done|]).
    + by apply Hd.
    + intros Hx'. by apply (Hd x).
  - intros ls v Hc. assert (in_grid (llabel y) ls) as Hg by (apply valid_cell_grid; [done|]; eauto).
    apply in_grid_labels_at in Hg as [idx Hg]. destruct (labels_at_lookup_is_Some _ _ _ ax l Hg Hl) as (i & x & _ & Hx & Hix).
    assert (Hin : x ∈ l) by (by eapply elem_of_list_lookup_2). rewrite <-Hpl, elem_of_app in Hin.
    destruct Hin as [Hin|Hin]; [left; rewrite (Hca ls x)|right; rewrite (Hcb ls x)]; done.
Qed.
