(** Operators on larrys. *)
From Verif Require Export OpsFacts.

(** [f] combines arrays element by element: [D] relates the dtypes, [R] the
    elements. *)
Definition pointwise (f : nda -> nda -> res nda) (D : dtype -> dtype -> dtype -> Prop)
    (R : dtype -> dtype -> val -> val -> val -> Prop) : Prop :=
  forall x y r, nda_wf x -> nda_wf y -> fits (nd_shape y) (nd_shape x) -> f x y = Ok r ->
    D (nd_dtype x) (nd_dtype y) (nd_dtype r) /\ nda_wf r /\ nd_shape r = nd_shape x /\
    forall idx, in_range (nd_shape x) idx -> exists idx' u v w,
      broadcast_index (nd_shape y) idx idx' /\
      aget (nd_arr x) idx = Some u /\ aget (nd_arr y) idx' = Some v /\
      R (nd_dtype x) (nd_dtype y) u v w /\ aget (nd_arr r) idx = Some w.

Lemma elementwise_pointwise dt f x y r (R : val -> val -> val -> Prop) :
  nda_wf x -> nda_wf y -> fits (nd_shape y) (nd_shape x) -> elementwise dt f x y = Ok r ->
  (forall u v w, has_dtype (nd_dtype x) u = true -> has_dtype (nd_dtype y) v = true -> f u v = Some w ->
     has_dtype dt w = true /\ R u v w) ->
  nda_wf r /\ nd_shape r = nd_shape x /\ nd_dtype r = dt /\
  forall idx, in_range (nd_shape x) idx -> exists idx' u v w,
    broadcast_index (nd_shape y) idx idx' /\
    aget (nd_arr x) idx = Some u /\ aget (nd_arr y) idx' = Some v /\
    R u v w /\ aget (nd_arr r) idx = Some w.
Proof.
  intros Hx Hy Hf Hr HR. destruct (elementwise_fits _ _ _ _ _ Hx Hy Hf Hr) as (Hd & Hs & Hwf & Hget).
  split_and!; [|done|done|].
  - apply nda_wf_get; [done|]. intros idx w Hw. rewrite Hd.
    assert (Hir : in_range (nd_shape x) idx).
    { rewrite <-Hs. unfold aget in Hw. by destruct (decide _) in Hw. }
    destruct (Hget idx Hir) as (idx' & u & v & w' & _ & Hu & Hv & Hfw & Hw'). rewrite Hw in Hw'. injection Hw' as <-.
    apply (HR u v w); [by eapply nda_wf_typed..|done].
  - intros idx Hir. destruct (Hget idx Hir) as (idx' & u & v & w & Hb & Hu & Hv & Hfw & Hw).
    exists idx', u, v, w. split_and!; try done. apply (HR u v w); [by eapply nda_wf_typed..|done].
Qed.

(** Functional description of the element functions. *)
Definition arith_rel (op : arith_op) (dt1 dt2 : dtype) (u v w : val) : Prop :=
  exists dt, arith_dtype op dt1 dt2 = Ok dt /\ arith_elem op dt u v = Some w /\ arith_value op u v w.
Definition logic_rel (op : logic_op) (dt1 dt2 : dtype) (u v w : val) : Prop := w = VBool (logic_value op u v).
Definition cmp_rel (op : cmp_op) (dt1 dt2 : dtype) (u v w : val) : Prop :=
  cmp_elem op u v = Some w /\ exists b, w = VBool b /\ (b = true <-> cmp_holds op u v).

Lemma np_arith_pointwise op :
  pointwise (np_arith op) (fun dt1 dt2 dt => arithmetic dt1 /\ arithmetic dt2 /\ arith_result op dt1 dt2 dt) (arith_rel op).
Proof.
  intros x y r Hx Hy Hf H. unfold np_arith in H. apply bind_ok in H as (dt & Hdt & H).
  destruct (elementwise_pointwise dt (arith_elem op dt) x y r (arith_rel op (nd_dtype x) (nd_dtype y)) Hx Hy Hf H)
    as (Hw & Hs & Hd & Hget).
  { intros u v w Hu Hv Hw. destruct (arith_elem_value _ _ _ _ _ _ _ Hdt Hu Hv Hw). split; [done|]. by exists dt. }
  rewrite Hd. split_and!; try done; by apply arith_dtype_spec in Hdt as (? & ? & ?).
Qed.
Lemma logic_dtype_spec dt1 dt2 dt : logic_dtype dt1 dt2 = Ok dt <-> arithmetic dt1 /\ arithmetic dt2 /\ dt = DBool.
Proof. unfold arithmetic. destruct dt1, dt2; simpl; naive_solver. Qed.
Lemma np_logic_pointwise op :
  pointwise (np_logic op) (fun dt1 dt2 dt => arithmetic dt1 /\ arithmetic dt2 /\ dt = DBool) (logic_rel op).
Proof.
  intros x y r Hx Hy Hf H. unfold np_logic in H. apply bind_ok in H as (dt & Hdt & H).
  apply logic_dtype_spec in Hdt as (? & ? & ->).
  destruct (elementwise_pointwise DBool (logic_elem op) x y r (logic_rel op (nd_dtype x) (nd_dtype y)) Hx Hy Hf H)
    as (Hw & Hs & Hd & Hget); [|done].
  intros u v w Hu Hv [= <-]. split; [done|]. by destruct op.
Qed.
Lemma cmp_pointwise op : pointwise (elementwise DBool (cmp_elem op)) (fun _ _ dt => dt = DBool) (cmp_rel op).
Proof.
  intros x y r Hx Hy Hf H.
  destruct (elementwise_pointwise DBool (cmp_elem op) x y r (cmp_rel op (nd_dtype x) (nd_dtype y)) Hx Hy Hf H)
    as (Hw & Hs & Hd & Hget); [|done].
  intros u v w Hu Hv Hw. destruct (cmp_elem_value _ _ _ _ Hw) as (b & -> & Hb). split; [done|]. split; [done|]. by exists b.
Qed.

(** * Two arrays with the same labels *)
Lemma broadcast_same sh idx idx' : in_range sh idx -> broadcast_index sh idx idx' -> idx' = idx.
Proof.
  intros Hr Hb. eapply broadcast_index_unique; [done|]. rewrite <-(bindex_same sh idx Hr) at 2.
  apply bindex_spec. by rewrite (in_range_length _ _ Hr).
Qed.
Lemma labels_in_range y idx ls : valid y -> labels_at (llabel y) idx ls -> in_range (lshape y) idx.
Proof.
  intros Hv Hl. destruct (valid_cell_at y idx ls Hv Hl) as (v & Hg & _). unfold aget in Hg. unfold lshape, nd_shape.
  by destruct (decide _) in Hg.
Qed.
Lemma pointwise_labelled f D R x1 x2 label r :
  pointwise f D R -> valid (Larry x1 label) -> valid (Larry x2 label) -> f x1 x2 = Ok r ->
  D (nd_dtype x1) (nd_dtype x2) (nd_dtype r) /\ valid (Larry r label) /\
  forall ls v1 v2, cell (Larry x1 label) ls = Some v1 -> cell (Larry x2 label) ls = Some v2 ->
    exists v, cell (Larry r label) ls = Some v /\ R (nd_dtype x1) (nd_dtype x2) v1 v2 v.
Proof.
  intros Hp H1 H2 Hf. assert (Hs : nd_shape x2 = nd_shape x1).
  { transitivity (length <$> label); [symmetry; apply (valid_shape _ H2)|apply (valid_shape _ H1)]. }
  destruct (Hp x1 x2 r) as (HD & Hw & Hsr & Hget); [apply H1|apply H2|rewrite Hs; apply fits_refl|done|].
  split; [done|]. assert (Hv : valid (Larry r label)).
  { split; [done|]. destruct H1 as (_ & Hne & Hsh & Hnd). split_and!; [done| |done].
    unfold lshape in *. simpl in *. by rewrite Hsr. }
  split; [done|]. intros ls v1 v2 Hc1 Hc2.
  assert (Hnd := valid_nodup _ Hv).
  apply cell_Some in Hc1 as (idx & Hl & Hg1); [|done].
  rewrite (cell_at (Larry x2 label) idx ls Hnd Hl) in Hc2.
  assert (Hr : in_range (nd_shape x1) idx) by exact (labels_in_range (Larry x1 label) idx ls H1 Hl).
  destruct (Hget idx Hr) as (idx' & u & v & w & Hb & Hu & Hv' & HR & Hw').
  rewrite Hs in Hb. assert (idx' = idx) as -> by (by eapply broadcast_same).
  change (larr (Larry x1 label)) with (nd_arr x1) in Hg1. change (larr (Larry x2 label)) with (nd_arr x2) in Hc2.
  exists w. split; [by rewrite (cell_at (Larry r label) idx ls Hnd Hl)|]. congruence.
Qed.

Lemma inner_labels_same y z : llabel z = llabel y -> forall y2, llabel y2 = llabel y -> inner_labels y y2 z.
Proof.
  intros Hz y2 Hy. split; [by rewrite Hz|]. split.
  - intros i l1 l2 r H1 H2 Hr. rewrite Hz in Hr. rewrite Hy in H2.
    assert (l2 = l1) as -> by congruence. assert (r = l1) as -> by congruence. unfold inter_label. by rewrite decide_True.
  - intros ls. rewrite Hz, Hy. tauto.
Qed.

(** The common specification of binary operators on two larrys. *)
Lemma larry_binary_spec f D R y1 y2 z :
  pointwise f D R -> valid y1 -> valid y2 -> larry_binary f y1 (OpLarry y2) = Ok z ->
  lndim y1 = lndim y2 /\ valid z /\ inner_labels y1 y2 z /\
  D (ldtype y1) (ldtype y2) (ldtype z) /\
  forall ls v1 v2, cell y1 ls = Some v1 -> cell y2 ls = Some v2 ->
    exists v, cell z ls = Some v /\ R (ldtype y1) (ldtype y2) v1 v2 v.
Proof.
  intros Hp H1 H2. simpl. destruct (decide _) as [HL|HL].
  - rewrite bind_ok. intros (x & Hx & [= <-]). destruct y1 as [x1 L1], y2 as [x2 L2]. simpl in *. subst L2.
    destruct (pointwise_labelled f D R x1 x2 L1 x Hp H1 H2 Hx) as (HD & Hv & Hc). split_and!; try done.
    + by rewrite <-(valid_ndim _ H1), <-(valid_ndim _ H2).
    + by apply inner_labels_same.
  - rewrite bind_ok. intros (p & Hop & H). destruct p as [[x y] label]. apply bind_ok in H as (r & Hr & [= <-]).
    destruct (op_align_spec _ _ _ _ _ H1 H2 Hop) as (Hnd & Hv1 & Hv2 & Hd1 & Hd2 & Hlen & Hlab & Hgrid & Hcell).
    destruct (pointwise_labelled f D R x y label r Hp Hv1 Hv2 Hr) as (HD & Hv & Hc).
    rewrite Hd1, Hd2 in *. split_and!; try done.
    intros ls v1 v2 Hc1 Hc2. assert (Hg : in_grid label ls).
    { apply Hgrid. split; apply valid_cell_grid; eauto. }
    destruct (Hcell ls Hg) as [E1 E2]. apply Hc; congruence.
Qed.
Lemma larry_binary_ok f y1 y2 :
  valid y1 -> valid y2 -> lndim y1 = lndim y2 ->
  (forall i l1 l2, llabel y1 !! i = Some l1 -> llabel y2 !! i = Some l2 ->
     l1 = l2 \/ all_comparable (filter (fun x => x ∈ l2) l1)) ->
  (forall x1 x2, nda_wf x1 -> nda_wf x2 -> nd_shape x1 = nd_shape x2 -> nd_dtype x1 = ldtype y1 -> nd_dtype x2 = ldtype y2 ->
     exists r, f x1 x2 = Ok r) ->
  exists z, larry_binary f y1 (OpLarry y2) = Ok z.
Proof.
  intros H1 H2 Hnd Hs Hf. simpl. destruct (decide _) as [HL|HL].
  - destruct (Hf (lx y1) (lx y2)) as [r ->]; [apply H1|apply H2| |done|done|simpl; eauto].
    change (lshape y1 = lshape y2). by rewrite <-(valid_shape _ H1), <-(valid_shape _ H2), HL.
  - destruct (op_align_ok y1 y2 H1 H2 Hnd Hs) as [[[x y] label] Hp]. rewrite Hp. simpl.
    destruct (op_align_spec _ _ _ _ _ H1 H2 Hp) as (_ & Hv1 & Hv2 & Hd1 & Hd2 & _).
    destruct (Hf x y) as [r ->]; [apply Hv1|apply Hv2| |done|done|simpl; eauto].
    transitivity (length <$> label); [symmetry; apply (valid_shape _ Hv1)|apply (valid_shape _ Hv2)].
Qed.
(** Labels the operators can sort: those the two share, axis by axis. *)
Definition shared_comparable (y1 y2 : larry) : Prop :=
  forall i l1 l2, llabel y1 !! i = Some l1 -> llabel y2 !! i = Some l2 ->
    l1 = l2 \/ all_comparable (filter (fun x => x ∈ l2) l1).
Lemma larry_binary_shared f y1 y2 z :
  valid y1 -> valid y2 -> lndim y1 = lndim y2 -> larry_binary f y1 (OpLarry y2) = Ok z -> shared_comparable y1 y2.
Proof.
  intros H1 H2 Hnd. simpl. destruct (decide _) as [HL|HL].
  - intros _ i l1 l2. rewrite HL. intros. left. congruence.
  - rewrite bind_ok. intros (p & Hop & _). exact (proj1 (op_align_iff _ _ H1 H2 Hnd) (ex_intro _ _ Hop)).
Qed.
Lemma larry_binary_ndim f y1 y2 : valid y1 -> valid y2 -> lndim y1 <> lndim y2 -> larry_binary f y1 (OpLarry y2) = Err IndexError.
Proof.
  intros H1 H2 Hnd. simpl. rewrite decide_False.
  - by rewrite op_align_ndim.
  - intros E. apply Hnd. by rewrite <-(valid_ndim _ H1), <-(valid_ndim _ H2), E.
Qed.

Lemma np_arith_ok op x y :
  nda_wf x -> nda_wf y -> fits (nd_shape y) (nd_shape x) -> arithmetic (nd_dtype x) -> arithmetic (nd_dtype y) ->
  exists r, np_arith op x y = Ok r.
Proof.
  intros Hx Hy Hf H1 H2. unfold np_arith.
  destruct (arith_dtype op (nd_dtype x) (nd_dtype y)) as [dt|e] eqn:E.
  - simpl. apply elementwise_fits_ok; try done. intros u v Hu Hv.
    destruct (arith_elem_ok op _ _ dt u v H1 H2 E Hu Hv). eauto.
  - exfalso. unfold arithmetic in *. destruct (nd_dtype x), (nd_dtype y); naive_solver.
Qed.
Lemma np_logic_ok op x y :
  nda_wf x -> nda_wf y -> fits (nd_shape y) (nd_shape x) -> arithmetic (nd_dtype x) -> arithmetic (nd_dtype y) ->
  exists r, np_logic op x y = Ok r.
Proof.
  intros Hx Hy Hf H1 H2. unfold np_logic.
  rewrite (proj2 (logic_dtype_spec (nd_dtype x) (nd_dtype y) DBool)) by done. simpl.
  apply elementwise_fits_ok; try done.
Qed.
Lemma np_compare_same op x y : same_kind (nd_dtype x) (nd_dtype y) -> nda_wf x -> nda_wf y -> fits (nd_shape y) (nd_shape x) ->
  exists r, elementwise DBool (cmp_elem op) x y = Ok r /\ np_compare op x y = Ok (inl r).
Proof.
  intros Hk Hx Hy Hf. destruct (elementwise_fits_ok DBool (cmp_elem op) x y Hx Hy Hf) as [r Hr].
  { intros u v Hu Hv. destruct (cmp_elem_ok _ _ op u v Hk Hu Hv). eauto. }
  exists r. split; [done|]. unfold np_compare. unfold same_kind, arithmetic in Hk.
  destruct (nd_dtype x), (nd_dtype y); rewrite ?Hr; naive_solver.
Qed.

(** * C20 *)
Lemma arith_larry op y1 y2 z :
  valid y1 -> valid y2 -> larry_arith op y1 (OpLarry y2) = Ok z ->
  lndim y1 = lndim y2 /\ valid z /\ inner_labels y1 y2 z /\
  arithmetic (ldtype y1) /\ arithmetic (ldtype y2) /\ arith_result op (ldtype y1) (ldtype y2) (ldtype z) /\
  forall ls v1 v2, cell y1 ls = Some v1 -> cell y2 ls = Some v2 ->
    exists v, cell z ls = Some v /\ arith_value op v1 v2 v.
Proof.
  intros H1 H2 H. destruct (larry_binary_spec _ _ _ _ _ _ (np_arith_pointwise op) H1 H2 H) as (? & ? & ? & (? & ? & ?) & Hc).
  split_and!; try done. intros ls v1 v2 Hc1 Hc2. destruct (Hc ls v1 v2 Hc1 Hc2) as (v & ? & (dt & ? & ? & ?)). eauto.
Qed.
Lemma arith_larry_ok op y1 y2 :
  valid y1 -> valid y2 -> lndim y1 = lndim y2 -> arithmetic (ldtype y1) -> arithmetic (ldtype y2) ->
  (forall i l1 l2, llabel y1 !! i = Some l1 -> llabel y2 !! i = Some l2 ->
     l1 = l2 \/ all_comparable (filter (fun x => x ∈ l2) l1)) ->
  exists z, larry_arith op y1 (OpLarry y2) = Ok z.
Proof.
  intros H1 H2 Hnd Ha1 Ha2 Hs. apply larry_binary_ok; try done. intros x1 x2 Hw1 Hw2 Hsh Hd1 Hd2.
  apply np_arith_ok; try done; [rewrite Hsh; apply fits_refl|congruence..].
Qed.
Lemma arith_larry_iff op y1 y2 :
  valid y1 -> valid y2 ->
  (exists z, larry_arith op y1 (OpLarry y2) = Ok z) <->
  lndim y1 = lndim y2 /\ arithmetic (ldtype y1) /\ arithmetic (ldtype y2) /\
  (forall i l1 l2, llabel y1 !! i = Some l1 -> llabel y2 !! i = Some l2 ->
     l1 = l2 \/ all_comparable (filter (fun x => x ∈ l2) l1)).
Proof.
  intros H1 H2. split; [intros [z Hz]|intros (? & ? & ? & ?); by apply arith_larry_ok].
  destruct (arith_larry op y1 y2 z H1 H2 Hz) as (Hnd & _ & _ & ? & ? & _). split_and!; try done.
  by eapply larry_binary_shared.
Qed.
Lemma logic_larry op y1 y2 z :
  valid y1 -> valid y2 -> larry_logic op y1 (OpLarry y2) = Ok z ->
  lndim y1 = lndim y2 /\ valid z /\ inner_labels y1 y2 z /\
  arithmetic (ldtype y1) /\ arithmetic (ldtype y2) /\ ldtype z = DBool /\
  forall ls v1 v2, cell y1 ls = Some v1 -> cell y2 ls = Some v2 -> cell z ls = Some (VBool (logic_value op v1 v2)).
Proof.
  intros H1 H2 H. destruct (larry_binary_spec _ _ _ _ _ _ (np_logic_pointwise op) H1 H2 H) as (? & ? & ? & (? & ? & ?) & Hc).
  split_and!; try done. intros ls v1 v2 Hc1 Hc2. destruct (Hc ls v1 v2 Hc1 Hc2) as (v & ? & ->). done.
Qed.
Lemma logic_larry_ok op y1 y2 :
  valid y1 -> valid y2 -> lndim y1 = lndim y2 -> arithmetic (ldtype y1) -> arithmetic (ldtype y2) ->
  (forall i l1 l2, llabel y1 !! i = Some l1 -> llabel y2 !! i = Some l2 ->
     l1 = l2 \/ all_comparable (filter (fun x => x ∈ l2) l1)) ->
  exists z, larry_logic op y1 (OpLarry y2) = Ok z.
Proof.
  intros H1 H2 Hnd Ha1 Ha2 Hs. apply larry_binary_ok; try done. intros x1 x2 Hw1 Hw2 Hsh Hd1 Hd2.
  apply np_logic_ok; try done; [rewrite Hsh; apply fits_refl|congruence..].
Qed.
Lemma logic_larry_iff op y1 y2 :
  valid y1 -> valid y2 ->
  (exists z, larry_logic op y1 (OpLarry y2) = Ok z) <->
  lndim y1 = lndim y2 /\ arithmetic (ldtype y1) /\ arithmetic (ldtype y2) /\
  (forall i l1 l2, llabel y1 !! i = Some l1 -> llabel y2 !! i = Some l2 ->
     l1 = l2 \/ all_comparable (filter (fun x => x ∈ l2) l1)).
Proof.
  intros H1 H2. split; [intros [z Hz]|intros (? & ? & ? & ?); by apply logic_larry_ok].
  destruct (logic_larry op y1 y2 z H1 H2 Hz) as (Hnd & _ & _ & ? & ? & _). split_and!; try done.
  by eapply larry_binary_shared.
Qed.
Lemma compare_larry op y1 y2 o :
  valid y1 -> valid y2 -> same_kind (ldtype y1) (ldtype y2) -> larry_compare op y1 (OpLarry y2) = Ok o ->
  exists z, o = OLar z /\ lndim y1 = lndim y2 /\ valid z /\ inner_labels y1 y2 z /\ ldtype z = DBool /\
  forall ls v1 v2, cell y1 ls = Some v1 -> cell y2 ls = Some v2 ->
    exists b, cell z ls = Some (VBool b) /\ (b = true <-> cmp_holds op v1 v2).
Proof.
  intros H1 H2 Hk. unfold larry_compare. rewrite bind_ok. intros (p & Hop & H). destruct p as [[x y] label].
  destruct (op_align_spec _ _ _ _ _ H1 H2 Hop) as (Hnd & Hv1 & Hv2 & Hd1 & Hd2 & Hlen & Hlab & Hgrid & Hcell).
  assert (Hsh : nd_shape y = nd_shape x).
  { transitivity (length <$> label); [symmetry; apply (valid_shape _ Hv2)|apply (valid_shape _ Hv1)]. }
  destruct (np_compare_same op x y) as (r & Hr & Hcmp); [by rewrite Hd1, Hd2|apply Hv1|apply Hv2|rewrite Hsh; apply fits_refl|].
  rewrite Hcmp in H. simpl in H. injection H as <-. eexists. split; [done|].
  destruct (pointwise_labelled _ _ _ x y label r (cmp_pointwise op) Hv1 Hv2 Hr) as (HD & Hv & Hc).
  split_and!; try done. intros ls v1 v2 Hc1 Hc2. assert (Hg : in_grid label ls).
  { apply Hgrid. split; apply valid_cell_grid; eauto. }
  destruct (Hcell ls Hg) as [E1 E2]. destruct (Hc ls v1 v2) as (v & ? & (_ & b & -> & Hb)); [congruence..|]. eauto.
Qed.
Lemma compare_larry_ok op y1 y2 :
  valid y1 -> valid y2 -> lndim y1 = lndim y2 -> same_kind (ldtype y1) (ldtype y2) ->
  (forall i l1 l2, llabel y1 !! i = Some l1 -> llabel y2 !! i = Some l2 ->
     l1 = l2 \/ all_comparable (filter (fun x => x ∈ l2) l1)) ->
  exists o, larry_compare op y1 (OpLarry y2) = Ok o.
Proof.
  intros H1 H2 Hnd Hk Hs. unfold larry_compare.
  destruct (op_align_ok y1 y2 H1 H2 Hnd Hs) as [[[x y] label] Hp]. rewrite Hp. simpl.
  destruct (op_align_spec _ _ _ _ _ H1 H2 Hp) as (_ & Hv1 & Hv2 & Hd1 & Hd2 & _).
  assert (Hsh : nd_shape y = nd_shape x).
  { transitivity (length <$> label); [symmetry; apply (valid_shape _ Hv2)|apply (valid_shape _ Hv1)]. }
  destruct (np_compare_same op x y) as (r & Hr & ->); [by rewrite Hd1, Hd2|apply Hv1|apply Hv2|rewrite Hsh; apply fits_refl|].
  simpl. eauto.
Qed.
Lemma compare_larry_iff op y1 y2 :
  valid y1 -> valid y2 -> same_kind (ldtype y1) (ldtype y2) ->
  (exists o, larry_compare op y1 (OpLarry y2) = Ok o) <->
  lndim y1 = lndim y2 /\
  (forall i l1 l2, llabel y1 !! i = Some l1 -> llabel y2 !! i = Some l2 ->
     l1 = l2 \/ all_comparable (filter (fun x => x ∈ l2) l1)).
Proof.
  intros H1 H2 Hk. split; [intros [z Hz]|intros (? & ?); by apply compare_larry_ok].
  assert (Hnd : lndim y1 = lndim y2) by (destruct (compare_larry op y1 y2 z H1 H2 Hk Hz) as (? & _ & ? & _); done).
  split; [done|]. unfold larry_compare in Hz. apply bind_ok in Hz as (p & Hop & _). exact (proj1 (op_align_iff _ _ H1 H2 Hnd) (ex_intro _ _ Hop)).
Qed.
Lemma compare_larry_ndim op y1 y2 : lndim y1 <> lndim y2 -> larry_compare op y1 (OpLarry y2) = Err IndexError.
Proof. intros H. unfold larry_compare. by rewrite op_align_ndim. Qed.

(** * The order of the labels is irrelevant *)
Lemma rel_same_cells (R : dtype -> dtype -> val -> val -> val -> Prop) f D y1 y2 y1' y2' z z' ls :
  pointwise f D R -> (forall dt1 dt2 u v w w', R dt1 dt2 u v w -> R dt1 dt2 u v w' -> w = w') ->
  valid y1 -> valid y2 -> valid y1' -> valid y2' ->
  ldtype y1 = ldtype y1' -> ldtype y2 = ldtype y2' ->
  (forall ls, cell y1 ls = cell y1' ls) -> (forall ls, cell y2 ls = cell y2' ls) ->
  larry_binary f y1 (OpLarry y2) = Ok z -> larry_binary f y1' (OpLarry y2') = Ok z' ->
  cell z ls = cell z' ls.
Proof.
  intros Hp HR H1 H2 H1' H2' Hd1 Hd2 Hc1 Hc2 Hz Hz'.
  destruct (larry_binary_spec _ _ _ _ _ _ Hp H1 H2 Hz) as (_ & Hv & (_ & _ & Hg) & _ & Hc).
  destruct (larry_binary_spec _ _ _ _ _ _ Hp H1' H2' Hz') as (_ & Hv' & (_ & _ & Hg') & _ & Hc').
  destruct (cell y1 ls) as [v1|] eqn:E1; [destruct (cell y2 ls) as [v2|] eqn:E2|].
  - destruct (Hc ls v1 v2 E1 E2) as (v & -> & HR1).
    destruct (Hc' ls v1 v2) as (v' & -> & HR2); [by rewrite <-Hc1|by rewrite <-Hc2|].
    f_equal. rewrite <-Hd1, <-Hd2 in HR2. by eapply HR.
  - transitivity (@None val); [|symmetry]; apply cell_None_grid; try done.
    + intros [_ G]%Hg. apply valid_cell_grid in G; [|done]. rewrite E2 in G. by destruct G.
    + intros [_ G]%Hg'. apply valid_cell_grid in G; [|done]. rewrite <-Hc2, E2 in G. by destruct G.
  - transitivity (@None val); [|symmetry]; apply cell_None_grid; try done.
    + intros [G _]%Hg. apply valid_cell_grid in G; [|done]. rewrite E1 in G. by destruct G.
    + intros [G _]%Hg'. apply valid_cell_grid in G; [|done]. rewrite <-Hc1, E1 in G. by destruct G.
Qed.
Lemma arith_rel_fun op dt1 dt2 u v w w' : arith_rel op dt1 dt2 u v w -> arith_rel op dt1 dt2 u v w' -> w = w'.
Proof. intros (dt & E & Ew & _) (dt' & E' & Ew' & _). rewrite E in E'. injection E' as <-. congruence. Qed.
Lemma logic_rel_fun op dt1 dt2 u v w w' : logic_rel op dt1 dt2 u v w -> logic_rel op dt1 dt2 u v w' -> w = w'.
Proof. unfold logic_rel. congruence. Qed.
Lemma arith_order op y1 y2 y1' y2' z z' ls :
  valid y1 -> valid y2 -> valid y1' -> valid y2' ->
  ldtype y1 = ldtype y1' -> ldtype y2 = ldtype y2' ->
  (forall ls, cell y1 ls = cell y1' ls) -> (forall ls, cell y2 ls = cell y2' ls) ->
  larry_arith op y1 (OpLarry y2) = Ok z -> larry_arith op y1' (OpLarry y2') = Ok z' ->
  cell z ls = cell z' ls.
Proof. apply rel_same_cells with (1 := np_arith_pointwise op). intros ? ? ? ? ? ?. apply arith_rel_fun. Qed.
Lemma logic_order op y1 y2 y1' y2' z z' ls :
  valid y1 -> valid y2 -> valid y1' -> valid y2' ->
  ldtype y1 = ldtype y1' -> ldtype y2 = ldtype y2' ->
  (forall ls, cell y1 ls = cell y1' ls) -> (forall ls, cell y2 ls = cell y2' ls) ->
  larry_logic op y1 (OpLarry y2) = Ok z -> larry_logic op y1' (OpLarry y2') = Ok z' ->
  cell z ls = cell z' ls.
Proof. apply rel_same_cells with (1 := np_logic_pointwise op). intros ? ? ? ? ? ?. apply logic_rel_fun. Qed.

(** * Commutativity *)
Lemma num_add_comm a b : num_add a b = num_add b a.
Proof. destruct a, b; simpl; try done. f_equal. apply Qcplus_comm. Qed.
Lemma num_mul_comm a b : num_mul a b = num_mul b a.
Proof. destruct a, b; simpl; try done. f_equal. apply Qcmult_comm. Qed.
Lemma inter_label_comm l1 l2 u u' : inter_label l1 l2 u -> inter_label l2 l1 u' -> u = u'.
Proof.
  unfold inter_label. repeat case_decide; subst; try done; [congruence|].
  intros [S1 M1] [S2 M2]. eapply lt_sorted_unique; try done. intros x. rewrite M1, M2. tauto.
Qed.
Lemma inner_labels_comm y1 y2 z z' : lndim y1 = lndim y2 -> valid y1 -> valid y2 ->
  inner_labels y1 y2 z -> inner_labels y2 y1 z' -> llabel z = llabel z'.
Proof.
  intros Hnd H1 H2 (L1 & I1 & _) (L2 & I2 & _). rewrite <-(valid_ndim _ H1), <-(valid_ndim _ H2) in Hnd.
  apply list_eq_same_length with (length (llabel y1)); [lia|lia|]. intros i u u' Hi Hu Hu'.
  destruct (lookup_lt_is_Some_2 (llabel y1) i Hi) as [l1 Hl1].
  destruct (lookup_lt_is_Some_2 (llabel y2) i) as [l2 Hl2]; [lia|].
  eapply inter_label_comm; [by eapply I1|by eapply I2].
Qed.
Lemma arith_comm op y1 y2 z z' :
  op = AAdd \/ op = AMul -> valid y1 -> valid y2 ->
  larry_arith op y1 (OpLarry y2) = Ok z -> larry_arith op y2 (OpLarry y1) = Ok z' -> z = z'.
Proof.
  intros Hop H1 H2 Hz Hz'.
  destruct (larry_binary_spec _ _ _ _ _ _ (np_arith_pointwise op) H1 H2 Hz) as (Hnd & Hv & HL & (_ & _ & HD) & Hc).
  destruct (larry_binary_spec _ _ _ _ _ _ (np_arith_pointwise op) H2 H1 Hz') as (_ & Hv' & HL' & (_ & _ & HD') & Hc').
  apply larry_ext; [done|done| |by eapply inner_labels_comm|].
  - rewrite HD, HD'. destruct Hop as [->| ->]; repeat case_decide; naive_solver.
  - intros ls Hg. apply HL in Hg as [G1 G2]. apply valid_cell_grid in G1 as [v1 E1]; [|done]. apply valid_cell_grid in G2 as [v2 E2]; [|done].
    destruct (Hc ls v1 v2 E1 E2) as (v & -> & (dt & Hdt & He & _)). destruct (Hc' ls v2 v1 E2 E1) as (v' & -> & (dt' & Hdt' & He' & _)).
    f_equal. assert (dt' = dt) as ->.
    { apply arith_dtype_spec in Hdt as (_ & _ & ->). apply arith_dtype_spec in Hdt' as (_ & _ & ->).
      destruct Hop as [->| ->]; repeat case_decide; naive_solver. }
    assert (E : arith_elem op dt v2 v1 = arith_elem op dt v1 v2); [|congruence].
    unfold arith_elem. destruct dt; try done.
    + destruct (to_num v1) as [a|], (to_num v2) as [b|]; simpl; try done.
      destruct Hop as [->| ->]; simpl; do 2 f_equal; [apply num_add_comm|apply num_mul_comm].
    + destruct (to_int v1) as [a|], (to_int v2) as [b|]; simpl; try done.
      destruct Hop as [->| ->]; simpl; do 2 f_equal; lia.
    + destruct (to_bool v1) as [[]|], (to_bool v2) as [[]|]; simpl; try done; by destruct Hop as [->| ->].
Qed.
