(** Proofs about la/flabel.py. *)
From Verif Require Export Flabel Spec LabFacts NDArrayFacts.

Section listmap.
  Context `{EqDecision A}.
  Implicit Types (l list : list A) (label : list (list A)).

  Lemma list1map_Some list1 x p : dict_get (list1map list1) x = Some p -> list1 !! p = Some x.
  Proof. unfold list1map. rewrite dict_zip_index. naive_solver. Qed.
  Lemma list1map_is_Some list1 x : is_Some (dict_get (list1map list1) x) <-> x ∈ list1.
  Proof.
    unfold list1map. rewrite <-not_eq_None_Some, dict_zip_None.
    destruct (decide (x ∈ list1)); naive_solver.
  Qed.
  Lemma list1map_None list1 x : dict_get (list1map list1) x = None <-> x ∉ list1.
  Proof. apply dict_zip_None. Qed.

  Lemma map_all_ok list1 l :
    (forall x, x ∈ l -> x ∈ list1) ->
    exists idx, mapR (fun i => of_opt KeyError (dict_get (list1map list1) i)) l = Ok idx /\
      mapM (list1 !!.) idx = Some l.
  Proof.
    induction l as [|x l IH]; intros H; [by exists []|].
    destruct IH as (idx & H1 & H2); [intros; apply H; by right|].
    assert (is_Some (dict_get (list1map list1) x)) as [p Hp].
    { apply list1map_is_Some, H. left. }
    exists (p :: idx). simpl. rewrite Hp. simpl. rewrite H1. split; [done|].
    rewrite (list1map_Some _ _ _ Hp). simpl. by rewrite H2.
  Qed.
  Lemma map_all_err list1 l :
    ~ (forall x, x ∈ l -> x ∈ list1) ->
    mapR (fun i => of_opt KeyError (dict_get (list1map list1) i)) l = Err KeyError.
  Proof.
    induction l as [|x l IH]; intros H.
    - exfalso. apply H. intros x Hx. by apply elem_of_nil in Hx.
    - simpl. destruct (dict_get (list1map list1) x) eqn:E; [|done]. simpl. rewrite IH; [done|].
      intros H'. apply H. intros y [->|Hy]%elem_of_cons; [|auto].
      apply list1map_is_Some. eauto.
  Qed.

  Lemma listmap_ok list1 list2 :
    (forall x, x ∈ list2 -> x ∈ list1) ->
    exists idx, listmap list1 list2 false = Ok idx /\ mapM (list1 !!.) idx = Some list2.
  Proof. apply map_all_ok. Qed.
  Lemma listmap_err list1 list2 :
    ~ (forall x, x ∈ list2 -> x ∈ list1) -> listmap list1 list2 false = Err KeyError.
  Proof. apply map_all_err. Qed.
  Lemma listmap_ignore list1 list2 :
    exists idx, listmap list1 list2 true = Ok idx /\
      mapM (list1 !!.) idx = Some (filter (fun x => x ∈ list1) list2).
  Proof.
    unfold listmap.
    assert (filter (fun i => is_Some (dict_get (list1map list1) i)) list2 =
            filter (fun x => x ∈ list1) list2) as ->.
    { apply list_filter_iff. intros x. apply list1map_is_Some. }
    apply map_all_ok. intros x [? _]%elem_of_list_filter. done.
  Qed.
  (** With unique labels the map is the position function. *)
  Lemma listmap_positions list1 list2 idx :
    NoDup list1 -> listmap list1 list2 false = Ok idx -> Forall2 (fun x p => index_of x list1 = Some p) list2 idx.
  Proof.
    intros Hnd H. unfold listmap in H. apply mapR_ok in H. eapply Forall2_impl; [exact H|].
    intros x p Hx. simpl in Hx. apply of_opt_ok in Hx. apply index_of_lookup; [done|].
    by apply list1map_Some.
  Qed.

  (** ** listmap_fill *)
  Definition fill_index (d : pydict A nat) (fill : Z) (x : A) : Z :=
    match dict_get d x with Some p => Z.of_nat p | None => fill end.
  Fixpoint fill_miss (d : pydict A nat) (n : nat) (l : list A) : list nat :=
    match l with
    | [] => []
    | x :: l' => (if dict_get d x then [] else [n]) ++ fill_miss d (S n) l'
    end.

  Lemma fill_fold d fill l n pre m :
    length pre = n ->
    fold_left (listmap_fill_step d) l ((Z.of_nat n - 1)%Z, pre ++ replicate (length l) fill, m) =
    ((Z.of_nat n + Z.of_nat (length l) - 1)%Z, pre ++ (fill_index d fill <$> l), m ++ fill_miss d n l).
  Proof.
    revert n pre m; induction l as [|x l IH]; intros n pre m Hn; simpl.
    - rewrite !app_nil_r. f_equal. f_equal. lia.
    - assert (Z.to_nat (Z.of_nat n - 1 + 1) = n) as E0 by lia. rewrite E0.
      assert (E1 : (Z.of_nat n - 1 + 1)%Z = (Z.of_nat (S n) - 1)%Z) by lia. rewrite E1.
      destruct (dict_get d x) as [p|] eqn:E; simpl.
      + rewrite insert_app_r_alt by lia. replace (n - length pre) with 0 by lia. simpl.
        rewrite (cons_middle (Z.of_nat p)), app_assoc, IH by (rewrite app_length; simpl; lia).
        rewrite <-app_assoc. csimpl. unfold fill_index at 2. rewrite E. f_equal. f_equal. lia.
      + rewrite (cons_middle fill), app_assoc, IH by (rewrite app_length; simpl; lia).
        rewrite <-!app_assoc. csimpl. unfold fill_index at 2. rewrite E. f_equal. f_equal. lia.
  Qed.
  Lemma listmap_fill_eq list1 list2 fill :
    listmap_fill list1 list2 fill =
    (fill_index (list1map list1) fill <$> list2, fill_miss (list1map list1) 0 list2).
  Proof.
    unfold listmap_fill. pose proof (fill_fold (list1map list1) fill list2 0 [] [] eq_refl) as H.
    change (Z.of_nat 0 - 1)%Z with (-1)%Z in H. simpl in H. by rewrite H.
  Qed.

  Lemma fill_miss_elem d n l i :
    i ∈ fill_miss d n l <-> n <= i /\ exists x, l !! (i - n) = Some x /\ dict_get d x = None.
  Proof.
    revert n; induction l as [|x l IH]; intros n; simpl.
    - rewrite elem_of_nil. naive_solver.
    - rewrite elem_of_app, IH. split.
      + intros [H|(H1 & y & Hy & Hn)].
        * destruct (dict_get d x) eqn:E; [by apply elem_of_nil in H|].
          apply elem_of_list_singleton in H as ->. split; [lia|]. exists x.
          by rewrite Nat.sub_diag.
        * split; [lia|]. exists y. replace (i - n) with (S (i - S n)) by lia. done.
      + intros (H1 & y & Hy & Hn). destruct (decide (i = n)) as [->|].
        * rewrite Nat.sub_diag in Hy. injection Hy as ->. left. rewrite Hn. by left.
        * right. split; [lia|]. exists y. replace (i - n) with (S (i - S n)) in Hy by lia. done.
  Qed.
  Lemma fill_miss_sorted d n l : StronglySorted lt (fill_miss d n l).
  Proof.
    revert n; induction l as [|x l IH]; intros n; simpl; [constructor|].
    destruct (dict_get d x); simpl; [apply IH|]. constructor; [apply IH|].
    apply Forall_forall. intros i [? _]%fill_miss_elem. lia.
  Qed.

  Lemma listmap_fill_spec list1 list2 fill index missing :
    listmap_fill list1 list2 fill = (index, missing) ->
    length index = length list2 /\
    (forall i x, list2 !! i = Some x -> x ∈ list1 ->
       exists p, index !! i = Some (Z.of_nat p) /\ list1 !! p = Some x) /\
    (forall i x, list2 !! i = Some x -> x ∉ list1 -> index !! i = Some fill) /\
    StronglySorted lt missing /\
    (forall i, i ∈ missing <-> exists x, list2 !! i = Some x /\ x ∉ list1).
  Proof.
    rewrite listmap_fill_eq. intros [= <- <-]. split_and!.
    - by rewrite fmap_length.
    - intros i x Hi Hx. apply list1map_is_Some in Hx as [p Hp]. exists p.
      rewrite list_lookup_fmap, Hi. simpl. unfold fill_index. rewrite Hp. split; [done|].
      by apply list1map_Some.
    - intros i x Hi Hx. apply list1map_None in Hx.
      rewrite list_lookup_fmap, Hi. simpl. unfold fill_index. by rewrite Hx.
    - apply fill_miss_sorted.
    - intros i. rewrite fill_miss_elem, Nat.sub_0_r. setoid_rewrite list1map_None. naive_solver lia.
  Qed.

  (** ** Cython versions *)
  Lemma c_list1map_eq list1 : c_list1map list1 = Ok (list1map list1).
  Proof.
    unfold c_list1map, list1map, dict_zip.
    enough (G : forall l pre d, list1 = pre ++ l ->
      foldM (fun d i => x ← of_opt IndexError (list1 !! i); Ok (dict_set x i d)) d
        (seq (length pre) (length l)) =
      Ok (fold_left (fun d p => dict_set p.1 p.2 d) (zip l (seq (length pre) (length l))) d)).
    { apply (G list1 []). done. }
    induction l as [|x l IH]; intros pre d H; simpl; [done|].
    assert (list1 !! length pre = Some x) as ->. { rewrite H. by apply list_lookup_middle. }
    simpl. replace (S (length pre)) with (length (pre ++ [x])) by (rewrite app_length; simpl; lia).
    apply IH. by rewrite <-app_assoc.
  Qed.

  Lemma c_listmap_eq list1 list2 ign : c_listmap list1 list2 ign = listmap list1 list2 ign.
  Proof.
    unfold c_listmap, listmap. rewrite c_list1map_eq. simpl. set (d := list1map list1). destruct ign.
    - enough (G : forall l pre acc, list2 = pre ++ l ->
        foldM (fun idx i => x ← of_opt IndexError (list2 !! i);
               match dict_get d x with Some p => Ok (idx ++ [p]) | None => Ok idx end)
          acc (seq (length pre) (length l)) =
        (app acc) <$> mapR (fun i => of_opt KeyError (dict_get d i))
          (filter (fun i => is_Some (dict_get d i)) l)).
      { rewrite (G list2 []) by done. by destruct (mapR _ _). }
      induction l as [|x l IH]; intros pre acc H; simpl; [by rewrite app_nil_r|].
      assert (list2 !! length pre = Some x) as ->. { rewrite H. by apply list_lookup_middle. }
      simpl. replace (S (length pre)) with (length (pre ++ [x])) by (rewrite app_length; simpl; lia).
      rewrite filter_cons. destruct (dict_get d x) as [p|] eqn:E; simpl.
      + rewrite E. simpl.
        rewrite IH by (by rewrite <-app_assoc). destruct (mapR _ _); simpl; [|done].
        by rewrite <-app_assoc.
      + apply IH. by rewrite <-app_assoc.
    - enough (G : forall l pre acc, list2 = pre ++ l -> length acc = length pre ->
        foldM (fun idx i => x ← of_opt IndexError (list2 !! i);
               p ← of_opt KeyError (dict_get d x); Ok (<[i := p]> idx))
          (acc ++ replicate (length l) 0) (seq (length pre) (length l)) =
        (app acc) <$> mapR (fun i => of_opt KeyError (dict_get d i)) l).
      { pose proof (G list2 [] []) as G'. simpl in G'. rewrite G' by done. by destruct (mapR _ _). }
      induction l as [|x l IH]; intros pre acc H Hl; simpl; [done|].
      assert (list2 !! length pre = Some x) as ->. { rewrite H. by apply list_lookup_middle. }
      simpl. replace (S (length pre)) with (length (pre ++ [x])) by (rewrite app_length; simpl; lia).
      destruct (dict_get d x) as [p|] eqn:E; simpl; [|done].
      rewrite <-Hl, insert_app_r_alt, Nat.sub_diag by lia. simpl.
      rewrite (cons_middle p), app_assoc.
      rewrite IH by (rewrite <-?app_assoc, ?app_length; simpl; auto; lia).
      destruct (mapR _ _); simpl; [|done]. by rewrite <-app_assoc.
  Qed.

  Lemma c_listmap_fill_eq list1 list2 fill :
    c_listmap_fill list1 list2 fill = Ok (listmap_fill list1 list2 fill).
  Proof.
    unfold c_listmap_fill. rewrite c_list1map_eq, listmap_fill_eq. simpl. set (d := list1map list1).
    enough (G : forall l pre acc m, list2 = pre ++ l -> length acc = length pre ->
      foldM (fun (st : list Z * list nat) i => x ← of_opt IndexError (list2 !! i);
             match dict_get d x with
             | Some p => Ok (<[i := Z.of_nat p]> st.1, st.2)
             | None => Ok (st.1, st.2 ++ [i])
             end) (acc ++ replicate (length l) fill, m) (seq (length pre) (length l)) =
      Ok (acc ++ (fill_index d fill <$> l), m ++ fill_miss d (length pre) l)).
    { apply (G list2 [] [] []); done. }
    induction l as [|x l IH]; intros pre acc m H Hl; simpl; [by rewrite !app_nil_r|].
    assert (list2 !! length pre = Some x) as ->. { rewrite H. by apply list_lookup_middle. }
    simpl. unfold fill_index at 1.
    assert (S (length pre) = length (pre ++ [x])) as -> by (rewrite app_length; simpl; lia).
    destruct (dict_get d x) as [p|] eqn:E; simpl.
    - rewrite <-Hl at 1. rewrite insert_app_r_alt, Nat.sub_diag by lia. simpl.
      rewrite (cons_middle (Z.of_nat p)), app_assoc.
      rewrite IH by (rewrite <-?app_assoc, ?app_length; simpl; auto; lia). by rewrite <-!app_assoc.
    - rewrite (cons_middle fill), app_assoc.
      rewrite IH by (rewrite <-?app_assoc, ?app_length; simpl; auto; lia). by rewrite <-!app_assoc.
  Qed.

  (** ** flattenlabel *)

  Lemma bind_lookup_block {B C} (f : B -> list C) (l : list B) (s : nat) k c :
    (forall b, b ∈ l -> length (f b) = s) ->
    (l ≫= f) !! k = Some c <-> exists i j b, k = i * s + j /\ l !! i = Some b /\ f b !! j = Some c.
  Proof.
    revert k; induction l as [|b l IH]; intros k Hs; simpl; [naive_solver|].
    assert (length (f b) = s) as Hb by (apply Hs; left).
    rewrite lookup_app. destruct (f b !! k) as [c'|] eqn:E.
    - pose proof (lookup_lt_Some _ _ _ E). split.
      + intros [= <-]. exists 0, k, b. done.
      + intros (i & j & b' & -> & Hi & Hj). destruct i as [|i].
        * simpl in *. congruence.
        * simpl in Hi. exfalso. lia.
    - apply lookup_ge_None in E. rewrite IH by (intros; apply Hs; by right). split.
      + intros (i & j & b' & Hk & Hi & Hj). exists (S i), j, b'. simpl. split_and!; [lia|done..].
      + intros (i & j & b' & -> & Hi & Hj). destruct i as [|i].
        * simpl in Hi. injection Hi as <-. apply lookup_lt_Some in Hj. lia.
        * exists i, j, b'. simpl in *. split_and!; [lia|done..].
  Qed.

  Lemma flatten_step_lookup idx (x : list A) k t :
    flatten_step idx x !! k = Some t <->
    exists i j y t', k = i * length idx + j /\ x !! i = Some y /\ idx !! j = Some t' /\ t = t' ++ [y].
  Proof.
    assert (Hin : forall y, idx ≫= (fun i => [i ++ [y]]) = (fun i => i ++ [y]) <$> idx).
    { intros y. induction idx as [|i idx IH]; csimpl; [done|]. by rewrite IH. }
    unfold flatten_step. rewrite (bind_lookup_block _ _ (length idx)).
    - setoid_rewrite Hin. setoid_rewrite list_lookup_fmap_Some. naive_solver.
    - intros b _. by rewrite Hin, fmap_length.
  Qed.
  Lemma flatten_step_length idx (x : list A) : length (flatten_step idx x) = length x * length idx.
  Proof.
    assert (Hin : forall y, length (idx ≫= (fun i => [i ++ [y]])) = length idx).
    { intros y. induction idx as [|i idx IH]; csimpl; [done|]. by rewrite IH. }
    unfold flatten_step. induction x as [|y x IH]; csimpl; [done|].
    rewrite app_length, Hin. lia.
  Qed.

  (** Little-endian position: first coordinate fastest. *)
  Fixpoint ravel_le (sh idx : list nat) : nat :=
    match sh, idx with
    | n :: sh', i :: idx' => i + n * ravel_le sh' idx'
    | _, _ => 0
    end.

  Lemma flatten_fold_length label :
    length (fold_left flatten_step label [[]]) = size_of (length <$> label).
  Proof.
    assert (G : forall acc, length (fold_left flatten_step label acc) = length acc * size_of (length <$> label)).
    { induction label as [|x label IH]; intros acc; csimpl; [lia|].
      rewrite IH, flatten_step_length. csimpl. lia. }
    rewrite G. simpl. lia.
  Qed.
  Lemma flatten_fold_lookup label acc k t :
    fold_left flatten_step label acc !! k = Some t <->
    exists idx ls j t0, labels_at label idx ls /\ acc !! j = Some t0 /\ t = t0 ++ ls /\
      k = j + length acc * ravel_le (length <$> label) idx.
  Proof.
    revert acc k t; induction label as [|x label IH]; intros acc k t; csimpl.
    - split.
      + intros Hk. exists [], [], k, t. rewrite app_nil_r. split_and!; [constructor|done..|lia].
      + intros (idx & ls & j & t0 & Hl & Hj & -> & ->). inversion Hl; subst.
        rewrite app_nil_r. by replace (j + _) with j by lia.
    - rewrite IH. setoid_rewrite flatten_step_lookup. split.
      + intros (idx & ls & j & t0 & Hl & (i & j' & y & t' & -> & Hi & Hj & ->) & -> & ->).
        exists (i :: idx), (y :: ls), j', t'. split_and!.
        * by constructor.
        * done.
        * by rewrite <-app_assoc.
        * rewrite flatten_step_length. csimpl. lia.
      + intros (idx & ls & j & t0 & Hl & Hj & -> & ->).
        inversion Hl as [|? i y ? idx' ls' Hi Hl']; subst.
        exists idx', ls', (i * length acc + j), (t0 ++ [y]). split_and!.
        * done.
        * eauto 10.
        * by rewrite <-app_assoc.
        * rewrite flatten_step_length. csimpl. lia.
  Qed.

  Lemma ravel_le_app sh1 sh2 idx1 idx2 :
    length sh1 = length idx1 ->
    ravel_le (sh1 ++ sh2) (idx1 ++ idx2) = ravel_le sh1 idx1 + size_of sh1 * ravel_le sh2 idx2.
  Proof.
    revert idx1; induction sh1 as [|n sh1 IH]; intros [|i idx1] H; simpl in *; try lia.
    rewrite IH by lia. nia.
  Qed.
  Lemma size_of_reverse sh : size_of (reverse sh) = size_of sh.
  Proof.
    induction sh as [|n sh IH]; [done|]. rewrite reverse_cons, size_of_app. simpl. lia.
  Qed.
  Lemma ravel_le_reverse sh idx :
    length sh = length idx -> ravel_le (reverse sh) (reverse idx) = ravel sh idx.
  Proof.
    revert idx; induction sh as [|n sh IH]; intros [|i idx] H; simpl in *; try done.
    rewrite !reverse_cons, ravel_le_app by (rewrite !reverse_length; lia).
    rewrite IH by lia. rewrite size_of_reverse. simpl. nia.
  Qed.

  Lemma labels_at_lengths label idx ls :
    labels_at label idx ls -> length idx = length label /\ length ls = length label.
  Proof. induction 1; simpl; naive_solver. Qed.
  Lemma labels_at_app label1 label2 idx1 idx2 ls1 ls2 :
    labels_at label1 idx1 ls1 -> labels_at label2 idx2 ls2 ->
    labels_at (label1 ++ label2) (idx1 ++ idx2) (ls1 ++ ls2).
  Proof.
    induction 1 as [|x i y l1 l2 l3 Hx _ IH]; simpl; [done|]. intros H. constructor; [done|by apply IH].
  Qed.
  Lemma labels_at_reverse label idx ls :
    labels_at label idx ls -> labels_at (reverse label) (reverse idx) (reverse ls).
  Proof.
    induction 1; [constructor|]. rewrite !reverse_cons. apply labels_at_app; [done|].
    constructor; [done|constructor].
  Qed.
  Lemma labels_at_in_range label idx ls : labels_at label idx ls -> in_range (length <$> label) idx.
  Proof.
    induction 1; csimpl; constructor; [by eapply lookup_lt_Some|done].
  Qed.
  Lemma labels_at_exists label idx :
    in_range (length <$> label) idx -> exists ls, labels_at label idx ls.
  Proof.
    revert idx; induction label as [|x label IH]; csimpl; intros idx.
    - intros ->%in_range_nil. exists []. constructor.
    - intros (i & idx' & -> & Hi & H)%in_range_cons. destruct (IH _ H) as [ls Hls].
      apply lookup_lt_is_Some in Hi as [y Hy]. exists (y :: ls). by constructor.
  Qed.
  Lemma labels_at_fun label idx ls ls' : labels_at label idx ls -> labels_at label idx ls' -> ls = ls'.
  Proof.
    intros H. revert ls'. induction H; intros ls' H'; inversion H'; simplify_eq; [done|]. f_equal; auto.
  Qed.
  Lemma labels_at_inj label idx idx' ls :
    Forall NoDup label -> labels_at label idx ls -> labels_at label idx' ls -> idx = idx'.
  Proof.
    intros Hnd H. revert idx'. induction H as [|? i ? ? ? ? Hi ? IH]; intros idx' H'; inversion H' as [|? i']; simplify_eq; [done|].
    apply Forall_cons in Hnd as [Hx Hnd]. f_equal; [|auto]. by eapply NoDup_lookup.
  Qed.
  Lemma labels_at_elem label ls :
    (exists idx, labels_at label idx ls) <-> Forall2 (fun x axis => x ∈ axis) ls label.
  Proof.
    split.
    - intros [idx H]. induction H; constructor; [by eapply elem_of_list_lookup_2|done].
    - induction 1 as [|x axis ls label Hx _ [idx IH]]; [exists []; constructor|].
      apply elem_of_list_lookup in Hx as [i Hi]. exists (i :: idx). by constructor.
  Qed.

  Lemma flattenlabel_C_lookup label k t :
    flattenlabel_order label true !! k = Some t <->
    exists idx, labels_at label idx t /\ k = ravel (length <$> label) idx.
  Proof.
    unfold flattenlabel_order. rewrite list_lookup_fmap_Some. setoid_rewrite flatten_fold_lookup. split.
    - intros (t' & (idx & ls & j & t0 & Hl & Hj & -> & ->) & ->). destruct j; simplify_eq/=.
      apply labels_at_reverse in Hl. rewrite reverse_involutive in Hl. exists (reverse idx).
      split; [done|]. apply labels_at_lengths in Hl as [Hl _].
      rewrite Nat.add_0_r. rewrite <-(ravel_le_reverse _ (reverse idx)).
      + rewrite reverse_involutive. by rewrite fmap_reverse.
      + by rewrite fmap_length.
    - intros (idx & Hl & ->). exists (reverse t). split; [|by rewrite reverse_involutive].
      exists (reverse idx), (reverse t), 0, []. split_and!; [by apply labels_at_reverse|done..|].
      simpl. rewrite Nat.add_0_r, fmap_reverse, ravel_le_reverse; [done|].
      rewrite fmap_length. symmetry. by apply labels_at_lengths in Hl as [-> _].
  Qed.
  Lemma flattenlabel_F_lookup label k t :
    flattenlabel_order label false !! k = Some t <->
    exists idx, labels_at label idx t /\ k = ravel (reverse (length <$> label)) (reverse idx).
  Proof.
    unfold flattenlabel_order. setoid_rewrite flatten_fold_lookup. split.
    - intros (idx & ls & j & t0 & Hl & Hj & -> & ->). destruct j; simplify_eq/=. exists idx.
      split; [done|]. rewrite Nat.add_0_r.
      rewrite <-(ravel_le_reverse (reverse (length <$> label))), !reverse_involutive; [done|].
      rewrite !reverse_length, fmap_length. by apply labels_at_lengths in Hl as [-> _].
    - intros (idx & Hl & ->). exists idx, t, 0, []. split_and!; [done..|]. simpl. rewrite Nat.add_0_r.
      rewrite <-(ravel_le_reverse (reverse (length <$> label))), !reverse_involutive; [done|].
      rewrite !reverse_length, fmap_length. by apply labels_at_lengths in Hl as [-> _].
  Qed.
  Lemma flattenlabel_length label o :
    length (flattenlabel_order label o) = size_of (length <$> label).
  Proof.
    unfold flattenlabel_order. destruct o.
    - by rewrite fmap_length, flatten_fold_length, fmap_reverse, size_of_reverse.
    - apply flatten_fold_length.
  Qed.
  Lemma flattenlabel_elem label o t :
    t ∈ flattenlabel_order label o <-> Forall2 (fun x axis => x ∈ axis) t label.
  Proof.
    rewrite elem_of_list_lookup, <-labels_at_elem. destruct o.
    - setoid_rewrite flattenlabel_C_lookup. naive_solver.
    - setoid_rewrite flattenlabel_F_lookup. naive_solver.
  Qed.
  Lemma flattenlabel_nodup label o : Forall NoDup label -> NoDup (flattenlabel_order label o).
  Proof.
    intros Hnd. apply NoDup_alt. intros i j t. destruct o.
    - intros (idx & H1 & ->)%flattenlabel_C_lookup (idx' & H2 & ->)%flattenlabel_C_lookup.
      by rewrite (labels_at_inj _ _ _ _ Hnd H1 H2).
    - intros (idx & H1 & ->)%flattenlabel_F_lookup (idx' & H2 & ->)%flattenlabel_F_lookup.
      by rewrite (labels_at_inj _ _ _ _ Hnd H1 H2).
  Qed.
End listmap.

(** ** list2index *)
Lemma list2index_spec L idx u :
  list2index L = Ok (idx, u) ->
  StronglySorted lab_lt u /\ (forall x, x ∈ u <-> x ∈ L) /\ mapM (u !!.) idx = Some L.
Proof.
  unfold list2index. intros (u' & Hu & (r & Hr & [= -> ->])%bind_ok)%bind_ok.
  apply sorted_set_ok in Hu as [Hs He]. split_and!; [done..|].
  destruct (map_all_ok u L) as (idx' & H1 & H2); [naive_solver|].
  fold (list1map u) in Hr. rewrite H1 in Hr. by injection Hr as <-.
Qed.
Lemma list2index_ok L : sortable L = true -> exists idx u, list2index L = Ok (idx, u).
Proof.
  intros HL. unfold list2index, sorted_set, py_sorted.
  rewrite (sortable_incl L) by (done || intros x; by rewrite elem_of_remove_dups). simpl.
  set (u := merge_sort lab_le (remove_dups L)).
  destruct (map_all_ok u L) as (idx & H1 & H2).
  { intros x Hx. unfold u. rewrite merge_sort_Permutation. by apply elem_of_remove_dups. }
  fold (list1map u). rewrite H1. simpl. eauto.
Qed.

Lemma flattenlabel_grid `{EqDecision A} (label : list (list A)) order l :
  flattenlabel label order = Ok l ->
  length l = foldr (fun axis n => length axis * n) 1 label /\
  (forall t, t ∈ l <-> Forall2 (fun x axis => x ∈ axis) t label) /\
  (Forall NoDup label -> NoDup l).
Proof.
  assert (size_of (length <$> label) = foldr (fun axis n => length axis * n) 1 label) as Hs.
  { induction label as [|x label IH]; csimpl; [done|]. by rewrite IH. }
  unfold flattenlabel. intros H.
  assert (exists o, l = flattenlabel_order label o) as [o ->].
  { repeat case_decide; try done; simplify_eq; [by exists true|by exists false]. }
  split_and!; [by rewrite flattenlabel_length|apply flattenlabel_elem|apply flattenlabel_nodup].
Qed.
Lemma flattenlabel_bad_order `{EqDecision A} (label : list (list A)) order :
  flattenlabel label order = Err ValueError <-> order <> "C" /\ order <> "F".
Proof. unfold flattenlabel. repeat case_decide; naive_solver. Qed.

Lemma lab_lt_total_order :
  (forall a, ~ lab_lt a a) /\
  (forall a b c, lab_lt a b -> lab_lt b c -> lab_lt a c) /\
  (forall a b, lab_lt a b \/ a = b \/ lab_lt b a).
Proof.
  split_and!; [apply lab_lt_irrefl|apply lab_cmp_trans|]. intros a b. unfold lab_lt.
  rewrite (lab_cmp_opp a b). destruct (lab_cmp a b) eqn:E; simpl; auto.
  apply lab_cmp_eq in E. auto.
Qed.
