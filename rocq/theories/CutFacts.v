(** Facts about vacuum, cut_missing and push. *)
From Verif Require Export ReduceFacts.

(** ** Slices *)
Lemma slice_elems_spec {B} (g : val -> B) y ax l i x :
  valid y -> llabel y !! ax = Some l -> l !! i = Some x ->
  exists bs, slice_elems (amap g (larr y)) ax i = Some bs /\
    Forall2 (fun ls b => exists v, cell y (with_label ax x ls) = Some v /\ b = g v) (grid (delete ax (llabel y))) bs.
Proof.
  intros Hv Hl Hx. unfold slice_elems. change (shape (amap g (larr y))) with (lshape y).
  rewrite <-(valid_shape y Hv). change (length <$> llabel y) with (fmap length (llabel y)). rewrite <-remove_at_fmap.
  change (delete ax (llabel y)) with (remove_at ax (llabel y)).
  pose proof (grid_indices (remove_at ax (llabel y))) as Hg. revert Hg.
  generalize (indices (length <$> remove_at ax (llabel y))) (grid (remove_at ax (llabel y))). intros is gs Hg.
  induction Hg as [|idx ls is gs Hi Hg (bs & Hbs & IH)].
  - exists []. split; [done|constructor].
  - assert (Hli : labels_at (llabel y) (insert_at ax i idx) (with_label ax x ls)).
    { rewrite <-(insert_remove_at ax l (llabel y)) by done. by apply labels_at_insert_at. }
    destruct (valid_cell_at y _ _ Hv Hli) as (v & Hgv & Hc). exists (g v :: bs). split; [|constructor; eauto].
    simpl. rewrite get_amap, Hgv. simpl. rewrite Hbs. done.
Qed.

(** The slice test read at the labels. *)
Lemma with_label_lookup ax x ls : ax <= length ls -> with_label ax x ls !! ax = Some x.
Proof. intros H. unfold with_label. rewrite lookup_app_r; rewrite take_length_le by done; [|done]. by rewrite Nat.sub_diag. Qed.
Lemma slice_grid L ax l x ls : L !! ax = Some l -> x ∈ l ->
  ls !! ax = Some x /\ in_grid L ls <-> exists ls', ls' ∈ grid (delete ax L) /\ ls = with_label ax x ls'.
Proof.
  intros Hl Hx. split.
  - intros [Hls Hg]. exists (delete ax ls). split.
    + apply elem_of_grid. rewrite in_grid_labels_at in *. destruct Hg as [idx Hi]. exists (remove_at ax idx). by apply labels_at_remove_at.
    + symmetry. by apply with_label_delete.
  - intros (ls' & Hg%elem_of_grid & ->). split.
    + apply with_label_lookup. apply in_grid_length in Hg. rewrite Hg, length_delete by eauto.
      apply lookup_lt_Some in Hl. lia.
    + rewrite <-(insert_remove_at ax l L) by done. by apply in_grid_insert_at.
Qed.
Lemma with_label_inj ax x ls ls' : ax <= length ls -> length ls = length ls' -> with_label ax x ls = with_label ax x ls' -> ls = ls'.
Proof.
  unfold with_label. intros Hlt Hlen E. apply app_inj_1 in E as [E1 [= E2]]; [|rewrite !take_length; lia].
  rewrite <-(take_drop ax ls), <-(take_drop ax ls'). congruence.
Qed.

Definition finite_b (v : val) : bool := match to_num v with Some n => is_finite n | None => false end.
Lemma finite_b_spec v : finite_b v = true <-> finite_val v.
Proof. unfold finite_b, finite_val. destruct (to_num v) as [[q| | |]|]; naive_solver. Qed.

Lemma slice_any_spec y ax l x bs :
  valid y -> llabel y !! ax = Some l -> x ∈ l ->
  Forall2 (fun ls b => exists v, cell y (with_label ax x ls) = Some v /\ b = finite_b v) (grid (delete ax (llabel y))) bs ->
  existsb id bs = true <-> slice_finite y ax x.
Proof.
  intros Hv Hl Hx H. rewrite existsb_exists. split.
  - intros (b & Hb & E). destruct b; [|done]. apply elem_of_list_In, elem_of_list_lookup in Hb as [i Hi].
    destruct (Forall2_lookup_r _ _ _ _ _ H Hi) as (ls & Hls & v & Hc & Hf).
    exists (with_label ax x ls). split.
    + apply (slice_grid _ ax l x _ Hl Hx). exists ls. split; [|done]. by eapply elem_of_list_lookup_2.
    + exists v. split; [done|]. by apply finite_b_spec.
  - intros (ls & Hls & v & Hc & Hf%finite_b_spec).
    assert (Hg : in_grid (llabel y) ls) by (apply valid_cell_grid; eauto).
    destruct (proj1 (slice_grid _ ax l x ls Hl Hx) (conj Hls Hg)) as (ls' & Hin & ->).
    apply elem_of_list_lookup in Hin as [i Hi]. destruct (Forall2_lookup_l _ _ _ _ _ H Hi) as (b & Hb & v' & Hc' & ->).
    exists (finite_b v'). assert (v' = v) as -> by congruence. rewrite Hf. split; [|done].
    rewrite Hf in Hb. apply elem_of_list_In. by eapply elem_of_list_lookup_2.
Qed.

Lemma counts_unique P n m : counts P n -> counts P m -> n = m.
Proof.
  intros (t1 & N1 & <- & H1) (t2 & N2 & <- & H2). apply Permutation_length, NoDup_Permutation; [done..|].
  intros ls. by rewrite H1, H2.
Qed.
Lemma slice_enough_spec f y ax l x bs :
  valid y -> llabel y !! ax = Some l -> x ∈ l ->
  Forall2 (fun ls b => exists v, cell y (with_label ax x ls) = Some v /\ b = finite_b v) (grid (delete ax (llabel y))) bs ->
  enough f bs = true <-> slice_enough f y ax x.
Proof.
  intros Hv Hl Hx H.
  assert (Hlen : forall ls, ls ∈ grid (delete ax (llabel y)) -> length ls = pred (length (llabel y)) /\ ax <= length ls).
  { intros ls Hg%elem_of_grid%in_grid_length. rewrite length_delete in Hg by eauto. apply lookup_lt_Some in Hl. lia. }
  assert (Hinj : forall gs, (forall ls, ls ∈ gs -> ls ∈ grid (delete ax (llabel y))) -> NoDup gs -> NoDup (with_label ax x <$> gs)).
  { intros gs Hs Hn. induction Hn as [|ls gs Hni Hn IH]; [constructor|]. cbn [fmap list_fmap]. constructor.
    - intros (ls' & E & Hin)%elem_of_list_fmap. apply with_label_inj in E as ->; [done|..].
      + apply Hlen, Hs. left.
      + rewrite (proj1 (Hlen ls (Hs ls ltac:(left)))). symmetry. apply Hlen, Hs. by right.
    - apply IH. intros; apply Hs. by right. }
  assert (Hnd : NoDup (grid (delete ax (llabel y)))) by (apply NoDup_grid, Forall_delete, valid_nodup; done).
  assert (Htot : counts (fun ls => ls !! ax = Some x /\ in_grid (llabel y) ls) (length bs)).
  { exists (with_label ax x <$> grid (delete ax (llabel y))). split_and!.
    - by apply Hinj.
    - rewrite fmap_length. by eapply Forall2_length.
    - intros ls. rewrite (slice_grid _ ax l x ls Hl Hx), elem_of_list_fmap. naive_solver. }
  assert (Hfin : counts (fun ls => ls !! ax = Some x /\ finite_at y ls) (length (filter (fun b => b = true) bs))).
  { assert (Hsub : exists gs, (forall ls, ls ∈ gs <-> ls ∈ grid (delete ax (llabel y)) /\ finite_at y (with_label ax x ls)) /\ NoDup gs /\
       length gs = length (filter (fun b => b = true) bs)).
    { clear -H Hnd. induction H as [|ls b gs bs (v & Hc & Hb) H IH].
      - exists []. split_and!; [|constructor|done]. intros ls. rewrite elem_of_nil. naive_solver.
      - apply NoDup_cons in Hnd as [Hni Hnd]. destruct (IH Hnd) as (gs' & Hgs & Hn' & Hlen'). rewrite filter_cons.
        destruct (decide (b = true)) as [Hbt|Hbt].
        + exists (ls :: gs'). split_and!.
          * intros ls0. rewrite !elem_of_cons, Hgs. split; [|naive_solver]. intros [->|?]; [|naive_solver].
            split; [by left|]. exists v. split; [done|]. apply finite_b_spec. congruence.
          * constructor; [|done]. rewrite Hgs. naive_solver.
          * simpl. by rewrite Hlen'.
        + exists gs'. split_and!; [|done|done]. intros ls0. rewrite elem_of_cons, Hgs. split; [naive_solver|].
          intros [[->|?] Hf]; [|done]. exfalso. destruct Hf as (v' & Hc' & Hf%finite_b_spec). apply Hbt. congruence. }
    destruct Hsub as (gs & Hgs & Hn & Hl'). exists (with_label ax x <$> gs). split_and!.
    - apply Hinj; [|done]. intros ls ?%Hgs. tauto.
    - by rewrite fmap_length.
    - intros ls. rewrite elem_of_list_fmap. split.
      + intros (ls' & -> & [Hin Hf]%Hgs). split; [|done]. apply (slice_grid _ ax l x _ Hl Hx). eauto.
      + intros [Hls Hf]. assert (Hg : in_grid (llabel y) ls) by (apply valid_cell_grid; [done|]; destruct Hf as (v & ? & _); eauto).
        destruct (proj1 (slice_grid _ ax l x ls Hl Hx) (conj Hls Hg)) as (ls' & Hin & ->). exists ls'. split; [done|]. by apply Hgs. }
  unfold enough. rewrite num_ltb_lt. split.
  - intros E. exists (length (filter (fun b => b = true) bs)), (length bs). done.
  - intros (n & t & Hn & Ht & E). rewrite (counts_unique _ _ _ Hfin Hn), (counts_unique _ _ _ Htot Ht). done.
Qed.

(** ** Cutting *)
Lemma positions_kept (P : lab -> Prop) (f : nat -> res bool) l :
  (forall i x, l !! i = Some x -> exists b, f i = Ok b /\ (b = true <-> P x)) ->
  exists ids l', positions f (seq 0 (length l)) = Ok ids /\ mapM (l !!.) ids = Some l' /\ kept P l l'.
Proof.
  intros H. unfold positions.
  assert (HH : forall l2 k, (forall i, l2 !! i = l !! (k + i)) ->
    exists ids l', positions_from k f (seq k (length l2)) = Ok ids /\ mapM (l !!.) ids = Some l' /\ kept P l2 l').
  { induction l2 as [|x l2 IH]; intros k Hk.
    - exists [], []. split_and!; [done..|constructor].
    - assert (Hx : l !! k = Some x) by (by rewrite <-(Nat.add_0_r k), <-Hk).
      destruct (H k x Hx) as (b & Hb & HP). destruct (IH (S k)) as (ids & l' & Hi & Hm & Hkept).
      { intros i. replace (S k + i) with (k + S i) by lia. rewrite <-Hk. done. }
      cbn [length seq positions_from]. rewrite Hb. cbn [mbind res_bind]. rewrite Hi. cbn [mbind res_bind]. destruct b.
      + exists (k :: ids), (x :: l'). split_and!; [done| |constructor; [by apply HP|done]]. simpl. rewrite Hx. simpl. by rewrite Hm.
      + exists ids, l'. split_and!; [done..|]. constructor; [|done]. intros ?%HP. done. }
  apply HH. done.
Qed.
Lemma kept_elem P l l' x : kept P l l' -> x ∈ l' <-> x ∈ l /\ P x.
Proof. induction 1; rewrite ?elem_of_cons, ?elem_of_nil; naive_solver. Qed.
Lemma kept_NoDup P l l' : kept P l l' -> NoDup l -> NoDup l'.
Proof.
  induction 1 as [|x l l' HP H IH|x l l' HP H IH]; [done|..]; intros [Hx Hn]%NoDup_cons; [|by apply IH].
  constructor; [|by apply IH]. rewrite (kept_elem _ _ _ _ H). naive_solver.
Qed.
Lemma kept_id P l : Forall P l -> kept P l l.
Proof. induction 1; constructor; done. Qed.
Lemma kept_all P l l' : kept P l l' -> Forall P l -> l' = l.
Proof. induction 1; intros [? ?]%Forall_cons || intros _; [done|f_equal; auto|done]. Qed.

Lemma lookup_all_labels (L L' : list (list lab)) ids idx' ls :
  Forall3 (fun l id l' => mapM (l !!.) id = Some l') L ids L' -> labels_at L' idx' ls ->
  exists idx, lookup_all ids idx' = Some idx /\ labels_at L idx ls.
Proof.
  intros H. revert idx' ls. induction H as [|l id l' L ids L' Hm H IH]; intros idx' ls Hl; inversion Hl; subst.
  - exists []. split; [done|constructor].
  - destruct (IH _ _ ltac:(done)) as (idx & Hi & Hlab). apply mapM_Some_lookup in Hm as [Hlen Hm].
    match goal with H : l' !! ?i = Some ?x |- _ => rename H into Hx; rename i into j end.
    assert (is_Some (id !! j)) as [p Hp] by (apply lookup_lt_is_Some; apply lookup_lt_Some in Hx; lia).
    exists (p :: idx). simpl. rewrite Hp. simpl. rewrite Hi. split; [done|]. constructor; [|done].
    rewrite <-Hx. by apply Hm.
Qed.

Lemma cut_slices_spec p (P : nat -> lab -> Prop) cut y :
  valid y -> arithmetic (ldtype y) ->
  (forall ax l x bs, llabel y !! ax = Some l -> x ∈ l ->
     Forall2 (fun ls b => exists v, cell y (with_label ax x ls) = Some v /\ b = finite_b v) (grid (delete ax (llabel y))) bs ->
     p bs = true <-> P ax x) ->
  exists z, cut_slices p cut y = Ok z /\ cut_down P (fun ax => cut ax = true) y z.
Proof.
  intros Hv Hd HP. unfold cut_slices. rewrite test_mask_ok by done. fold finite_b. change (nd_arr (lx y)) with (larr y).
  set (F := fun ax => n ← of_opt IndexError (axlen (larr y) ax);
          if cut ax then m ← Ok (amap finite_b (larr y)); slice_test p m ax else Ok (seq 0 n)).
  assert (HF : forall ax l, llabel y !! ax = Some l -> exists id l', F ax = Ok id /\ mapM (l !!.) id = Some l' /\
     (cut ax = true -> kept (P ax) l l') /\ (cut ax <> true -> l' = l) /\ NoDup l').
  { intros ax l Hl. assert (Hs : axlen (larr y) ax = Some (length l)).
    { unfold axlen. change (shape (larr y)) with (lshape y). apply valid_axis; [done|]. eauto. }
    assert (Hnl : NoDup l). { eapply Forall_lookup_1; [apply valid_nodup, Hv|done]. }
    unfold F. rewrite Hs. cbn [of_opt mbind res_bind]. destruct (cut ax) eqn:Ec.
    - unfold slice_test. change (axlen (amap finite_b (larr y)) ax) with (axlen (larr y) ax). rewrite Hs. cbn [of_opt mbind res_bind].
      destruct (positions_kept (P ax) (fun i => l0 ← of_opt IndexError (slice_elems (amap finite_b (larr y)) ax i); Ok (p l0)) l)
        as (ids & l' & Hi & Hm & Hk).
      { intros i x Hx. destruct (slice_elems_spec finite_b y ax l i x Hv Hl Hx) as (bs & Hbs & H).
        exists (p bs). rewrite Hbs. split; [done|]. apply (HP ax l x bs Hl); [by eapply elem_of_list_lookup_2|done]. }
      exists ids, l'. split_and!; [done..|by eapply kept_NoDup].
    - exists (seq 0 (length l)), l. split_and!; [done|by rewrite mapM_seq_take, firstn_all|done..]. }
  assert (Hall : exists ids L', mapR F (seq 0 (lndim y)) = Ok ids /\ Forall3 (fun l id l' => mapM (l !!.) id = Some l') (llabel y) ids L' /\
     Forall NoDup L' /\
     forall ax l, llabel y !! ax = Some l -> exists l', L' !! ax = Some l' /\ (cut ax = true -> kept (P ax) l l') /\ (cut ax <> true -> l' = l)).
  { rewrite <-valid_ndim by done.
    assert (HH : forall L k, (forall i, L !! i = llabel y !! (k + i)) -> exists ids L', mapR F (seq k (length L)) = Ok ids /\
      Forall3 (fun l id l' => mapM (l !!.) id = Some l') L ids L' /\ Forall NoDup L' /\
      forall i l, L !! i = Some l -> exists l', L' !! i = Some l' /\ (cut (k + i) = true -> kept (P (k + i)) l l') /\ (cut (k + i) <> true -> l' = l)).
    { induction L as [|l L IH]; intros k Hk.
      - exists [], []. split_and!; [done|constructor|constructor|]. intros i l. by rewrite lookup_nil.
      - assert (Hl : llabel y !! k = Some l) by (by rewrite <-(Nat.add_0_r k), <-Hk).
        destruct (HF k l Hl) as (id & l' & Hid & Hm & Hk1 & Hk2 & Hnd').
        destruct (IH (S k)) as (ids & L' & Hids & H3 & HN & Hlk).
        { intros i. replace (S k + i) with (k + S i) by lia. by rewrite <-Hk. }
        exists (id :: ids), (l' :: L'). split_and!.
        + simpl. by rewrite Hid, Hids.
        + by constructor.
        + by constructor.
        + intros [|i] l0 Hi.
          * injection Hi as <-. exists l'. rewrite Nat.add_0_r. done.
          * replace (k + S i) with (S k + i) by lia. by apply Hlk. }
    apply HH. done. }
  destruct Hall as (ids & L' & Hids & H3 & HN & Hlk). match goal with |- context [mapR ?f (seq 0 (lndim y))] => change (mapR f (seq 0 (lndim y))) with (mapR F (seq 0 (lndim y))) end. rewrite Hids. cbn [mbind res_bind].
  assert (Hlen : length L' = length (llabel y)) by (apply Forall3_length_lr in H3; done).
  assert (HmL : mapR (fun q : list lab * list nat => of_opt IndexError (mapM (q.1 !!.) q.2)) (zip (llabel y) ids) = Ok L').
  { apply mapR_ok. clear -H3. induction H3 as [|l id l' L ids L' Hm H IH]; [constructor|]. simpl. constructor; [|done]. simpl. by rewrite Hm. }
  rewrite HmL. cbn [mbind res_bind].
  assert (Hsz : length <$> ids = length <$> L').
  { clear -H3. induction H3 as [|l id l' L ids L' Hm H IH]; [done|]. simpl. f_equal; [|done]. by apply mapM_length in Hm. }
  assert (Hmap : forall idx' ls', labels_at L' idx' ls' -> exists idx, lookup_all ids idx' = Some idx /\ labels_at (llabel y) idx (id ls')).
  { intros idx' ls'. by apply lookup_all_labels. }
  assert (HL : L' <> []).
  { intros ->. destruct (llabel y) eqn:E; [|done]. destruct Hv as (_ & Hne & _). by apply Hne. }
  unfold outer_take. rewrite Hsz. destruct (regrid_is_Some y L' (lookup_all ids) id Hv Hmap) as [b Hb].
  rewrite Hb. cbn [of_opt mbind res_bind]. eexists. split; [done|].
  destruct (regrid y L' (lookup_all ids) id b Hv HL HN Hb Hmap) as [Hvz Hc].
  split_and!; done.
Qed.

(** ** vacuum *)
Definition vacuum_axis (axis : axes_arg) (ax : nat) : bool :=
  match axis with
  | AxNone => true
  | AxInt a => negb (bool_decide (Z.of_nat ax = a))
  | AxTuple l => negb (bool_decide (Z.of_nat ax ∈ l))
  end.
Lemma vacuum_total y axis :
  valid y -> arithmetic (ldtype y) ->
  exists z, vacuum y axis = Ok z /\ cut_down (slice_finite y) (fun ax => vacuum_axis axis ax = true) y z.
Proof.
  intros Hv Hd. apply cut_slices_spec; [done..|]. intros ax l x bs Hl Hx H. by eapply slice_any_spec.
Qed.
Lemma cut_down_labels P axes y z ls : cut_down P axes y z -> in_grid (llabel z) ls -> (forall ax, Decision (axes ax)) -> in_grid (llabel y) ls.
Proof.
  intros (_ & _ & Hlen & Hl & _) Hg Hdec. apply in_grid_alt in Hg as [Hgl Hg]. apply in_grid_alt. split; [congruence|].
  intros ax x l Hx Hlx. destruct (Hl ax l Hlx) as (l' & Hl' & H1 & H2). specialize (Hg ax x l' Hx Hl').
  destruct (Hdec ax) as [Ha|Ha]; [|by rewrite <-H2]. apply H1 in Ha. apply (kept_elem _ _ _ x) in Ha. naive_solver.
Qed.
(** No finite value is lost. *)
Lemma cut_down_finite y z axis ls :
  valid y -> cut_down (slice_finite y) (fun ax => vacuum_axis axis ax = true) y z -> finite_at z ls <-> finite_at y ls.
Proof.
  intros Hv Hz. pose proof Hz as (Hvz & _ & Hlen & Hl & Hc). split.
  - intros (v & Hv' & Hf). assert (Hg : in_grid (llabel z) ls) by (apply valid_cell_grid; eauto).
    rewrite Hc in Hv' by done. by exists v.
  - intros (v & Hv' & Hf). assert (Hg : in_grid (llabel y) ls) by (apply valid_cell_grid; eauto).
    exists v. split; [|done]. rewrite Hc; [done|]. apply in_grid_alt. apply in_grid_alt in Hg as [Hgl Hg]. split; [congruence|].
    intros ax x l' Hx Hl'. assert (is_Some (llabel y !! ax)) as [l Hly].
    { apply lookup_lt_is_Some. apply lookup_lt_Some in Hl'. lia. }
    destruct (Hl ax l Hly) as (l'' & Hl'' & H1 & H2). assert (l'' = l') as -> by congruence.
    specialize (Hg ax x l Hx Hly). destruct (vacuum_axis axis ax) eqn:E.
    + apply (kept_elem _ _ _ x (H1 eq_refl)). split; [done|]. exists ls. split; [done|]. by exists v.
    + by rewrite H2.
Qed.
Lemma vacuum_idempotent y axis z :
  valid y -> arithmetic (ldtype y) -> vacuum y axis = Ok z -> vacuum z axis = Ok z.
Proof.
  intros Hv Hd Hz. destruct (vacuum_total y axis Hv Hd) as (z' & Hz' & Hcut). assert (z' = z) as -> by congruence. clear Hz'.
  pose proof Hcut as (Hvz & Hdz & Hlen & Hl & Hc). rewrite <-Hdz in Hd.
  destruct (vacuum_total z axis Hvz Hd) as (z2 & Hz2 & Hcut2). rewrite Hz2. f_equal.
  pose proof Hcut2 as (Hv2 & Hd2 & Hlen2 & Hl2 & Hc2).
  assert (HL : llabel z2 = llabel z).
  { apply list_eq. intros ax. destruct (llabel z !! ax) as [l|] eqn:Ez.
    - destruct (Hl2 ax l Ez) as (l2 & -> & H1 & H2). f_equal. destruct (vacuum_axis axis ax) eqn:E; [|by apply H2].
      eapply kept_all; [by apply H1|]. apply Forall_forall. intros x Hx.
      assert (is_Some (llabel y !! ax)) as [l0 Hl0]. { apply lookup_lt_is_Some. apply lookup_lt_Some in Ez. lia. }
      destruct (Hl ax l0 Hl0) as (l' & Hl' & H3 & _). assert (l' = l) as -> by congruence.
      destruct (proj1 (kept_elem _ _ _ x (H3 E)) Hx) as [_ (ls & Hls & Hf)]. exists ls. split; [done|].
      by apply (cut_down_finite y z axis).
    - apply lookup_ge_None. apply lookup_ge_None in Ez. lia. }
  apply larry_ext; [done..|]. intros ls Hg. apply Hc2. done.
Qed.

(** ** cut_missing *)
Lemma cut_missing_total y f a ax :
  valid y -> arithmetic (ldtype y) -> axis_is y a ax ->
  exists z, cut_down (slice_enough f y) (fun k => k <> ax) y z /\
    cut_missing y f (Some a) = Ok (if decide (lsize z = 0) then empty_larry else z).
Proof.
  intros Hv Hd Hax. unfold cut_missing.
  assert (py_index (lndim y) a = Some ax) as ->.
  { apply py_index_Some. rewrite <-valid_ndim by done. exact Hax. }
  cbn [of_opt mbind res_bind].
  destruct (cut_slices_spec (enough f) (slice_enough f y) (fun k => negb (bool_decide (k ∈ [ax]))) y Hv Hd) as (z & Hz & Hcut).
  { intros k l x bs Hl Hx H. by eapply slice_enough_spec. }
  exists z. split.
  - destruct Hcut as (?&?&?&Hl&?). split_and!; try done. intros k l Hk. destruct (Hl k l Hk) as (l' & ? & Hk1 & Hk2).
    exists l'. split; [done|]. rewrite negb_true_iff, bool_decide_eq_false in Hk1, Hk2. rewrite elem_of_list_singleton in Hk1, Hk2.
    done.
  - rewrite Hz. cbn [mbind res_bind]. by case_decide.
Qed.
Lemma cut_missing_none y f :
  valid y -> arithmetic (ldtype y) -> nonempty y -> cut_missing y f None = Ok y.
Proof.
  intros Hv Hd Hne. unfold cut_missing. cbn [mbind res_bind].
  destruct (cut_slices_spec (enough f) (slice_enough f y) (fun k => negb (bool_decide (k ∈ seq 0 (lndim y)))) y Hv Hd) as (z & Hz & Hcut).
  { intros k l x bs Hl Hx H. by eapply slice_enough_spec. }
  rewrite Hz. cbn [mbind res_bind]. assert (z = y) as ->.
  { destruct Hcut as (?&?&Hlen&Hl&Hc).
    assert (HL : llabel z = llabel y).
    { apply list_eq. intros k. destruct (llabel y !! k) as [l|] eqn:E.
      - destruct (Hl k l E) as (l' & -> & _ & H2). f_equal. apply H2. rewrite bool_decide_eq_true_2; [done|].
        apply elem_of_seq. apply lookup_lt_Some in E. rewrite <-valid_ndim by done. lia.
      - apply lookup_ge_None. apply lookup_ge_None in E. lia. }
    apply larry_ext; [done..|]. intros ls Hg. by apply Hc. }
  rewrite decide_False by (by apply size_nonempty). done.
Qed.

(** ** push *)
Lemma push_from_length n i r c l : length (push_from n i r c l) = length l.
Proof. revert i r c. induction l as [|v l IH]; intros i r c; [done|]. cbn [push_from]. destruct (val_isfinite v); simpl; by rewrite IH. Qed.
Definition push_state (n : Z) (pre : list val) (r : val) (c : option nat) : Prop :=
  match c with
  | None => r = VFloat NaN /\ forall j w, pre !! j = Some w -> ~ finite_val w
  | Some c => exists w, pre !! c = Some w /\ finite_val w /\
      (forall j u, c < j -> pre !! j = Some u -> ~ finite_val u) /\
      (r = w \/ r = VFloat NaN /\ (n < Z.of_nat (length pre) - Z.of_nat c)%Z)
  end.
Lemma push_from_spec n pre r c l k v :
  Forall (fun u => val_isfinite u = true <-> finite_val u) l ->
  push_state n pre r c -> push_from n (length pre) r c l !! k = Some v -> pushed n (pre ++ l) (length pre + k) v.
Proof.
  intros Hb. revert pre r c k v. induction Hb as [|u l Hu Hb IH]; intros pre r c k v Hst Hk; [done|].
  cbn [push_from] in Hk.
  set (r' := match c with Some c0 => if decide (n < Z.of_nat (length pre) - Z.of_nat c0)%Z then VFloat NaN else r | None => r end) in *.
  assert (Happ : pre ++ u :: l = (pre ++ [u]) ++ l) by (by rewrite <-app_assoc).
  assert (Hlen : length (pre ++ [u]) = S (length pre)) by (rewrite app_length; simpl; lia).
  destruct (val_isfinite u) eqn:Ef.
  - destruct k as [|k].
    + injection Hk as <-. exists u. rewrite Nat.add_0_r, list_lookup_middle by done. split; [done|]. left. split; [by apply Hu|done].
    + rewrite Happ. replace (length pre + S k) with (length (pre ++ [u]) + k) by lia. eapply IH; [|rewrite Hlen; exact Hk].
      simpl. exists u. rewrite list_lookup_middle by done. split_and!; [done|by apply Hu| |by left].
      intros j w Hj Hw. apply lookup_lt_Some in Hw. lia.
  - assert (Hnu : ~ finite_val u) by (intros H%Hu; done).
    destruct k as [|k].
    + injection Hk as <-. exists u. rewrite Nat.add_0_r, list_lookup_middle by done. split; [done|]. right. split; [done|].
      destruct c as [c|]; simpl in Hst.
      * destruct Hst as (w & Hw & Hfw & Hno & Hr). pose proof (lookup_lt_Some _ _ _ Hw) as Hlt. unfold r'.
        destruct (decide (n < Z.of_nat (length pre) - Z.of_nat c)%Z) as [Hn|Hn].
        -- right. split; [done|]. intros j w' Hj Hjn Hw'. rewrite lookup_app_l in Hw' by lia.
           apply (Hno j w'); [lia|done].
        -- destruct Hr as [->|[_ ?]]; [|lia]. left. exists c. split_and!; [lia|lia|by rewrite lookup_app_l|done|].
           intros i w' Hi Hw'. rewrite lookup_app_l in Hw' by lia. apply (Hno i w'); [lia|done].
      * destruct Hst as [-> Hno]. right. split; [done|]. intros j w Hj _ Hw. rewrite lookup_app_l in Hw by lia. by apply (Hno j).
    + rewrite Happ. replace (length pre + S k) with (length (pre ++ [u]) + k) by lia. eapply IH; [|rewrite Hlen; exact Hk].
      destruct c as [c|]; simpl in Hst |- *.
      * destruct Hst as (w & Hw & Hfw & Hno & Hr). pose proof (lookup_lt_Some _ _ _ Hw) as Hlt. exists w. split_and!; [by apply lookup_app_l_Some|done| |].
        -- intros j w' Hj Hw'. apply lookup_app_Some in Hw' as [Hw'|[Hge Hw']]; [by eapply Hno|].
           apply list_lookup_singleton_Some in Hw' as [_ <-]. done.
        -- unfold r'. rewrite Hlen. destruct (decide (n < Z.of_nat (length pre) - Z.of_nat c)%Z) as [Hn|Hn]; [right; split; [done|lia]|].
           destruct Hr as [->|[-> ?]]; [by left|right; split; [done|lia]].
      * destruct Hst as [Hr Hno]. unfold r'. split; [done|]. intros j w Hw. apply lookup_app_Some in Hw as [Hw|[_ Hw]]; [by eapply Hno|].
        apply list_lookup_singleton_Some in Hw as [_ <-]. done.
Qed.
Lemma isfinite_typed dt v : arithmetic dt -> has_dtype dt v = true -> val_isfinite v = true <-> finite_val v.
Proof.
  unfold finite_val. intros [->|[->| ->]] H; destruct v as [[]| | | | |]; simpl in *; try done; naive_solver.
Qed.
Lemma push_lane_spec dt n l k v :
  arithmetic dt -> Forall (fun u => has_dtype dt u = true) l -> push_lane n l !! k = Some v -> pushed n l k v.
Proof.
  intros Hd Ht Hk. apply (push_from_spec n [] (VFloat NaN) None l k v); [|by split|done].
  eapply Forall_impl; [exact Ht|]. intros u. by apply isfinite_typed.
Qed.
Lemma push_lane_typed dt n l :
  arithmetic dt -> Forall (fun u => has_dtype dt u = true) l -> Forall (fun u => has_dtype dt u = true) (push_lane n l).
Proof.
  intros Hd Ht. apply Forall_lookup. intros k v Hk. destruct (push_lane_spec dt n l k v Hd Ht Hk) as (u & Hu & H).
  destruct H as [[_ ->]|[Hnf [(j & _ & _ & Hj & _)|[-> _]]]].
  - exact (Forall_lookup_1 _ _ _ _ Ht Hu).
  - exact (Forall_lookup_1 _ _ _ _ Ht Hj).
  - apply (Forall_lookup_1 _ _ _ _ Ht) in Hu. destruct Hd as [->|[->| ->]]; [done|..];
      destruct u; simpl in Hu; try done; exfalso; apply Hnf; eexists; simpl; done.
Qed.
Lemma larry_push_total y n a ax :
  valid y -> arithmetic (ldtype y) -> axis_is y a ax ->
  exists z, larry_push y n a = Ok z /\ valid z /\ ldtype z = ldtype y /\ llabel z = llabel y /\
    forall ls, in_grid (llabel y) ls -> exists vs k v, in_lane y ax ls vs k /\ cell z ls = Some v /\ pushed n vs k v.
Proof.
  intros Hv Hd Hax. unfold larry_push. assert (Hlt : ax < lndim y) by (rewrite <-valid_ndim by done; apply Hax).
  unfold norm_axis. assert (py_index (lndim y) a = Some ax) as ->.
  { apply py_index_Some. rewrite <-valid_ndim by done. exact Hax. }
  destruct (along_larry y ax (ldtype y) (push_lane n) Hv Hlt) as (b & Hb & Hvz & Hc).
  { intros l. apply push_from_length. } { intros l. by apply push_lane_typed. }
  exists (Larry (Nda (ldtype y) b) (llabel y)). split.
  { cbn [of_opt mbind res_bind]. rewrite Hb. destruct Hd as [->|[->| ->]]; done. }
  split_and!; [done..|]. intros ls Hg. destruct (Hc ls Hg) as (vs & k & Hin & Hcell).
  assert (Hz : in_grid (llabel (Larry (Nda (ldtype y) b) (llabel y))) ls) by done. apply (valid_cell_grid _ _ Hvz) in Hz as [v Hcv].
  exists vs, k, v. split_and!; [done..|]. apply (push_lane_spec (ldtype y)); [done| |congruence].
  eapply lane_of_typed; [done|apply Hin].
Qed.
Lemma larry_push_axis y n a :
  valid y -> (forall ax, ~ axis_is y a ax) -> forall z, larry_push y n a <> Ok z.
Proof.
  intros Hv Hax z Hz. unfold larry_push in Hz.
  assert (exists ax, py_index (lndim y) a = Some ax) as [ax H].
  { unfold norm_axis in Hz. destruct (py_index (lndim y) a); [eauto|]. by destruct (ldtype y). }
  apply (Hax ax). apply py_index_Some in H. unfold axis_is. by rewrite valid_ndim.
Qed.

(** ** Forms used in the properties *)
Lemma larry_cum_ok op y axis ax :
  valid y -> arithmetic (ldtype y) -> axis_is y axis ax -> exists z, larry_cum op y (Some axis) = Ok z.
Proof. intros Hv Hd Hax. destruct (larry_cum_total op y axis ax Hv Hd Hax) as (z & Hz & _). eauto. Qed.
Lemma larry_cum_none op y : larry_cum op y None = Err ValueError.
Proof. done. Qed.
Lemma larry_clip_le y lo hi l h :
  valid y -> clip_typed (ldtype y) lo hi -> to_num lo = Some l -> to_num hi = Some h -> num_le l h ->
  exists z, larry_clip y lo hi = Ok z /\ valid z /\ llabel z = llabel y /\ ldtype z = ldtype y /\
    forall ls v, cell y ls = Some v -> exists n w m, to_num v = Some n /\ cell z ls = Some w /\ to_num w = Some m /\ clipped l h n m.
Proof.
  intros Hv Ht Hl Hh Hle. assert (Hn : l <> NaN /\ h <> NaN).
  { destruct Hle as [H|H]; destruct l, h; simpl in H; unfold num_same in H; naive_solver. }
  pose proof (larry_clip_total y lo hi l h Hv Ht Hl Hh (proj1 Hn) (proj2 Hn)) as H.
  destruct (num_ltb h l) eqn:E; [|done]. apply num_ltb_lt, num_lt_not_le in E. done.
Qed.
Lemma larry_clip_gt y lo hi l h :
  to_num lo = Some l -> to_num hi = Some h -> num_lt h l -> larry_clip y lo hi = Err ValueError.
Proof. intros Hl Hh Hlt%num_ltb_lt. unfold larry_clip. rewrite Hl, Hh. simpl. by rewrite Hlt. Qed.
Lemma cut_down_axes P (A B : nat -> Prop) y z : (forall ax, A ax <-> B ax) -> cut_down P A y z -> cut_down P B y z.
Proof.
  intros HAB (?&?&?&Hl&?). split_and!; try done. intros ax l Hax. destruct (Hl ax l Hax) as (l' & ? & Hk1 & Hk2).
  exists l'. rewrite <-HAB. done.
Qed.
Lemma vacuum_cut y axis :
  valid y -> arithmetic (ldtype y) ->
  exists z, vacuum y axis = Ok z /\
    cut_down (slice_finite y) (fun ax => match axis with
                                         | AxNone => True
                                         | AxInt a => Z.of_nat ax <> a
                                         | AxTuple l => Z.of_nat ax ∉ l
                                         end) y z.
Proof.
  intros Hv Hd. destruct (vacuum_total y axis Hv Hd) as (z & Hz & Hc). exists z. split; [done|].
  eapply cut_down_axes; [|exact Hc]. intros ax. destruct axis; simpl; rewrite ?negb_true_iff, ?bool_decide_eq_false; done.
Qed.
Lemma vacuum_finite y axis z ls :
  valid y -> arithmetic (ldtype y) -> vacuum y axis = Ok z -> finite_at z ls <-> finite_at y ls.
Proof.
  intros Hv Hd Hz. destruct (vacuum_total y axis Hv Hd) as (z' & Hz' & Hc). assert (z' = z) as -> by congruence.
  by apply (cut_down_finite y z axis).
Qed.
Lemma cut_missing_none_refuted : exists y fraction z,
  valid y /\ cut_missing y fraction None = Ok z /\
  ~ cut_down (slice_enough fraction y) (fun _ => True) y z.
Proof.
  set (y := Larry (Nda DFloat (Arr [2] [VFloat NaN; VFloat (num_of_Z 1)])) [[LInt 1; LInt 2]]).
  assert (Hv : valid y) by solve_valid.
  exists y, (num_of_Z 0), y. split_and!; [done|by apply cut_missing_none; [|left|repeat constructor]|].
  intros (_ & _ & _ & Hl & _). destruct (Hl 0 [LInt 1; LInt 2] eq_refl) as (l' & Hl' & Hk & _).
  injection Hl' as <-. specialize (Hk I). assert (Hin : LInt 1 ∈ [LInt 1; LInt 2]) by left.
  apply (kept_elem _ _ _ _ Hk) in Hin as [_ Hin].
  assert (Hc : enough (num_of_Z 0) [false] = true).
  { apply (slice_enough_spec (num_of_Z 0) y 0 [LInt 1; LInt 2] (LInt 1) [false] Hv eq_refl ltac:(left)); [|done].
    constructor; [|constructor]. by exists (VFloat NaN). }
  done.
Qed.
