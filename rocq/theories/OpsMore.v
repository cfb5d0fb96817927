(** Operators with arrays and scalars, reflected operators, elementwise
    methods, binaryop. *)
From Verif Require Export OpsLarry.

(** * Arrays and scalars *)
Lemma pointwise_array f D R y a r :
  pointwise f D R -> valid y -> nda_wf a -> fits (nd_shape a) (lshape y) -> f (lx y) a = Ok r ->
  D (ldtype y) (nd_dtype a) (nd_dtype r) /\ valid (Larry r (llabel y)) /\
  forall idx ls, labels_at (llabel y) idx ls -> exists idx' u v w,
    broadcast_index (nd_shape a) idx idx' /\ cell y ls = Some u /\ aget (nd_arr a) idx' = Some v /\
    R (ldtype y) (nd_dtype a) u v w /\ cell (Larry r (llabel y)) ls = Some w.
Proof.
  intros Hp Hy Ha Hf Hr. destruct (Hp (lx y) a r) as (HD & Hw & Hs & Hget); [apply Hy|done|done|done|].
  split; [done|]. assert (Hv : valid (Larry r (llabel y))).
  { destruct Hy as (_ & Hne & Hsh & Hnd). split_and!; try done. unfold lshape in *. simpl. by rewrite Hs. }
  split; [done|]. intros idx ls Hl. destruct (Hget idx) as (idx' & u & v & w & Hb & Hu & Hva & HR & Hwi).
  { exact (labels_in_range y idx ls Hy Hl). }
  exists idx', u, v, w. assert (Hnd := valid_nodup _ Hy). rewrite (cell_at y idx ls Hnd Hl), (cell_at (Larry r (llabel y)) idx ls Hnd Hl). done.
Qed.
Lemma pointwise_array_bad dt f y a r :
  valid y -> elementwise dt f (lx y) a = Ok r -> valid (Larry r (llabel y)) -> fits (nd_shape a) (lshape y).
Proof.
  intros Hy Hr Hv. apply (elementwise_no_fit _ _ _ _ _ Hr).
  transitivity (length <$> llabel y); [symmetry; apply (valid_shape _ Hv)|apply (valid_shape _ Hy)].
Qed.

Lemma arith_array op y a z :
  valid y -> nda_wf a -> fits (nd_shape a) (lshape y) -> larry_arith op y (OpArr a) = Ok z ->
  valid z /\ llabel z = llabel y /\ arith_result op (ldtype y) (nd_dtype a) (ldtype z) /\
  forall idx ls, labels_at (llabel y) idx ls -> exists idx' u v w,
    broadcast_index (nd_shape a) idx idx' /\ cell y ls = Some u /\ aget (nd_arr a) idx' = Some v /\
    arith_value op u v w /\ cell z ls = Some w.
Proof.
  intros Hy Ha Hf. unfold larry_arith, larry_binary. rewrite bind_ok. intros (r & Hr & [= <-]).
  destruct (pointwise_array _ _ _ y a r (np_arith_pointwise op) Hy Ha Hf Hr) as ((_ & _ & HD) & Hv & Hc).
  split_and!; try done. intros idx ls Hl. destruct (Hc idx ls Hl) as (idx' & u & v & w & ? & ? & ? & (dt & _ & _ & ?) & ?).
  by exists idx', u, v, w.
Qed.
Lemma arith_array_ok op y a :
  valid y -> nda_wf a -> fits (nd_shape a) (lshape y) -> arithmetic (ldtype y) -> arithmetic (nd_dtype a) ->
  exists z, larry_arith op y (OpArr a) = Ok z.
Proof.
  intros Hy Ha Hf H1 H2. unfold larry_arith, larry_binary. destruct (np_arith_ok op (lx y) a) as [r ->]; try done; [apply Hy|].
  simpl. eauto.
Qed.
Lemma arith_array_valid op y a z :
  valid y -> nda_wf a -> larry_arith op y (OpArr a) = Ok z ->
  llabel z = llabel y /\ (valid z <-> fits (nd_shape a) (lshape y)).
Proof.
  intros Hy Ha H. split.
  - unfold larry_arith, larry_binary in H. apply bind_ok in H as (r & _ & [= <-]). done.
  - split; [|intros; by eapply arith_array].
    unfold larry_arith, larry_binary in H. apply bind_ok in H as (r & Hr & [= <-]).
    unfold np_arith in Hr. apply bind_ok in Hr as (dt & _ & Hr). by eapply pointwise_array_bad.
Qed.
Lemma logic_array op y a z :
  valid y -> nda_wf a -> fits (nd_shape a) (lshape y) -> larry_logic op y (OpArr a) = Ok z ->
  valid z /\ llabel z = llabel y /\ ldtype z = DBool /\
  forall idx ls, labels_at (llabel y) idx ls -> exists idx' u v,
    broadcast_index (nd_shape a) idx idx' /\ cell y ls = Some u /\ aget (nd_arr a) idx' = Some v /\
    cell z ls = Some (VBool (logic_value op u v)).
Proof.
  intros Hy Ha Hf. unfold larry_logic, larry_binary. rewrite bind_ok. intros (r & Hr & [= <-]).
  destruct (pointwise_array _ _ _ y a r (np_logic_pointwise op) Hy Ha Hf Hr) as ((_ & _ & HD) & Hv & Hc).
  split_and!; try done. intros idx ls Hl. destruct (Hc idx ls Hl) as (idx' & u & v & w & ? & ? & ? & -> & ?).
  by exists idx', u, v.
Qed.
Lemma compare_array op y a :
  valid y -> nda_wf a -> fits (nd_shape a) (lshape y) -> same_kind (ldtype y) (nd_dtype a) ->
  exists z, larry_compare op y (OpArr a) = Ok (OLar z) /\ valid z /\ llabel z = llabel y /\ ldtype z = DBool /\
  forall idx ls, labels_at (llabel y) idx ls -> exists idx' u v b,
    broadcast_index (nd_shape a) idx idx' /\ cell y ls = Some u /\ aget (nd_arr a) idx' = Some v /\
    cell z ls = Some (VBool b) /\ (b = true <-> cmp_holds op u v).
Proof.
  intros Hy Ha Hf Hk. destruct (np_compare_same op (lx y) a) as (r & Hr & Hc); [done|apply Hy|done|done|].
  exists (Larry r (llabel y)). unfold larry_compare. rewrite Hc. split; [done|].
  destruct (pointwise_array _ _ _ y a r (cmp_pointwise op) Hy Ha Hf Hr) as (HD & Hv & Hcell).
  split_and!; try done. intros idx ls Hl. destruct (Hcell idx ls Hl) as (idx' & u & v & w & ? & ? & ? & (_ & b & -> & ?) & ?).
  by exists idx', u, v, b.
Qed.

(** Scalars. *)
Lemma scalar_nda_spec v a : scalar_nda v = Ok a -> nda_wf a /\ nd_shape a = [] /\ aget (nd_arr a) [] = Some v /\ has_dtype (nd_dtype a) v = true.
Proof.
  unfold scalar_nda. rewrite bind_ok. intros (dt & Hdt & [= <-]). apply of_opt_ok in Hdt.
  assert (has_dtype dt v = true) by (by destruct v; simplify_eq/=). split_and!; try done. split; [done|]. by constructor.
Qed.
Lemma broadcast_nil idx idx' : broadcast_index [] idx idx' -> idx' = [].
Proof. unfold broadcast_index. intros H. by inversion H. Qed.
Lemma arith_scalar op y v z :
  valid y -> larry_arith op y (OpScalar v) = Ok z ->
  valid z /\ llabel z = llabel y /\
  forall ls u, cell y ls = Some u -> exists w, cell z ls = Some w /\ arith_value op u v w.
Proof.
  intros Hy. unfold larry_arith, larry_binary. rewrite bind_ok. intros (a & Ha & H).
  apply scalar_nda_spec in Ha as (Hw & Hs & Hg & Ht).
  destruct (arith_array op y a z) as (Hv & HL & _ & Hc); [done|done|rewrite Hs; apply fits_nil|done|].
  split_and!; try done. intros ls u Hu. assert (Hu' := Hu). apply cell_Some in Hu' as (idx & Hl & _); [|exact (valid_nodup _ Hy)].
  destruct (Hc idx ls Hl) as (idx' & u' & v' & w & Hb & Hu' & Hv' & HR & Hz). rewrite Hs in Hb. apply broadcast_nil in Hb as ->.
  exists w. split; [done|]. congruence.
Qed.
Lemma arith_scalar_ok op y v : valid y -> arithmetic (ldtype y) -> is_Some (to_num v) -> exists z, larry_arith op y (OpScalar v) = Ok z.
Proof.
  intros Hy H1 [n Hn]. unfold larry_arith, larry_binary.
  assert (exists a, scalar_nda v = Ok a /\ arithmetic (nd_dtype a)) as (a & Ha & Hd).
  { destruct v; try done; (eexists; split; [reflexivity|]); unfold arithmetic; simpl; tauto. }
  rewrite Ha. simpl. apply scalar_nda_spec in Ha as (Hw & Hs & _ & _).
  apply (arith_array_ok op y a); try done. rewrite Hs. apply fits_nil.
Qed.
Lemma logic_scalar op y v z :
  valid y -> larry_logic op y (OpScalar v) = Ok z ->
  valid z /\ llabel z = llabel y /\ ldtype z = DBool /\
  forall ls, cell z ls = (fun u => VBool (logic_value op u v)) <$> cell y ls.
Proof.
  intros Hy. unfold larry_logic, larry_binary. rewrite bind_ok. intros (a & Ha & H).
  apply scalar_nda_spec in Ha as (Hw & Hs & Hg & Ht).
  destruct (logic_array op y a z) as (Hv & HL & HD & Hc); [done|done|rewrite Hs; apply fits_nil|done|].
  split_and!; try done. intros ls. destruct (cell y ls) as [u|] eqn:Hu.
  - assert (Hu' := Hu). apply cell_Some in Hu' as (idx & Hl & _); [|exact (valid_nodup _ Hy)].
    destruct (Hc idx ls Hl) as (idx' & u' & v' & Hb & Hu' & Hv' & Hz). rewrite Hs in Hb. apply broadcast_nil in Hb as ->.
    simpl. congruence.
  - simpl. apply cell_None_grid; [done|]. rewrite HL. by apply cell_None_grid.
Qed.
Lemma compare_scalar op y v :
  valid y -> (arithmetic (ldtype y) /\ is_Some (to_num v)) \/ (ldtype y = DStr /\ has_dtype DStr v = true) ->
  exists z, larry_compare op y (OpScalar v) = Ok (OLar z) /\ valid z /\ llabel z = llabel y /\ ldtype z = DBool /\
  forall ls u, cell y ls = Some u -> exists b, cell z ls = Some (VBool b) /\ (b = true <-> cmp_holds op u v).
Proof.
  intros Hy Hk. assert (exists a, scalar_nda v = Ok a /\ same_kind (ldtype y) (nd_dtype a)) as (a & Ha & Hk').
  { unfold same_kind. destruct Hk as [[Ha [n Hn]]|[-> Hv]].
    - destruct v; try done; (eexists; split; [reflexivity|]); left; (split; [done|]); unfold arithmetic; simpl; tauto.
    - destruct v; try done. eexists. split; [reflexivity|]. by right. }
  pose proof (scalar_nda_spec _ _ Ha) as (Hw & Hs & Hg & Ht).
  destruct (compare_array op y a) as (z & Hz & Hv & HL & HD & Hc); [done|done|rewrite Hs; apply fits_nil|done|].
  exists z. unfold larry_compare in *. rewrite Ha. simpl. split_and!; try done.
  intros ls u Hu. assert (Hu' := Hu). apply cell_Some in Hu' as (idx & Hl & _); [|exact (valid_nodup _ Hy)].
  destruct (Hc idx ls Hl) as (idx' & u' & v' & b & Hb & Hu' & Hv' & Hzc & HR). rewrite Hs in Hb. apply broadcast_nil in Hb as ->.
  exists b. split; [done|]. congruence.
Qed.

(** * Reflected operators *)
Lemma np_arith_swap_pointwise op :
  pointwise (fun x y => np_arith op y x) (fun dt1 dt2 dt => arith_result op dt2 dt1 dt)
    (fun dt1 dt2 u v w => arith_rel op dt2 dt1 v u w).
Proof.
  intros x y r Hx Hy Hf H. unfold np_arith in H. apply bind_ok in H as (dt & Hdt & H). rewrite elementwise_swap in H.
  destruct (elementwise_pointwise dt _ x y r (fun u v w => arith_rel op (nd_dtype y) (nd_dtype x) v u w) Hx Hy Hf H)
    as (Hw & Hs & Hd & Hget).
  { intros u v w Hu Hv Hw. destruct (arith_elem_value _ _ _ _ _ _ _ Hdt Hv Hu Hw). split; [done|]. by exists dt. }
  rewrite Hd. split_and!; try done; by apply arith_dtype_spec in Hdt as (? & ? & ?).
Qed.
Lemma arith_value_comm op u v w : op = AAdd \/ op = AMul -> arith_value op u v w -> arith_value op v u w.
Proof.
  intros Hop.
  assert (G : forall n1 n2, arith_num op n1 n2 = arith_num op n2 n1).
  { intros. destruct Hop as [->| ->]; [apply num_add_comm|apply num_mul_comm]. }
  assert (H : (exists n1 n2, to_num u = Some n1 /\ to_num v = Some n2 /\
      if decide (op = AFloorDiv /\ n2 = num_of_Z 0 /\ has_dtype DFloat u = false /\ has_dtype DFloat v = false)
      then w = VInt 0 else to_num w = Some (arith_num op n1 n2)) ->
    exists n1 n2, to_num v = Some n1 /\ to_num u = Some n2 /\
      if decide (op = AFloorDiv /\ n2 = num_of_Z 0 /\ has_dtype DFloat v = false /\ has_dtype DFloat u = false)
      then w = VInt 0 else to_num w = Some (arith_num op n1 n2)).
  { intros (n1 & n2 & H1 & H2 & H). exists n2, n1. split_and!; [done..|].
    rewrite decide_False in H by (intros [-> _]; by destruct Hop). rewrite decide_False by (intros [-> _]; by destruct Hop).
    by rewrite G. }
  unfold arith_value in *. destruct Hop as [->| ->]; destruct u, v; try exact H; intros ->; f_equal; [apply orb_comm|apply andb_comm].
Qed.
Lemma rdivide_array op y a z :
  valid y -> nda_wf a -> fits (nd_shape a) (lshape y) -> larry_rdivide op y (OpArr a) = Ok z ->
  valid z /\ llabel z = llabel y /\
  forall idx ls, labels_at (llabel y) idx ls -> exists idx' u v w,
    broadcast_index (nd_shape a) idx idx' /\ cell y ls = Some u /\ aget (nd_arr a) idx' = Some v /\
    arith_value op v u w /\ cell z ls = Some w.
Proof.
  intros Hy Ha Hf. unfold larry_rdivide. rewrite bind_ok. intros (r & Hr & [= <-]).
  destruct (pointwise_array _ _ _ y a r (np_arith_swap_pointwise op) Hy Ha Hf Hr) as (HD & Hv & Hc).
  split_and!; try done. intros idx ls Hl. destruct (Hc idx ls Hl) as (idx' & u & v & w & ? & ? & ? & (dt & _ & _ & ?) & ?).
  by exists idx', u, v, w.
Qed.

(** Negation. *)
Lemma neg_spec y z :
  valid y -> larry_neg y = Ok z ->
  valid z /\ llabel z = llabel y /\ ldtype z = ldtype y /\ arithmetic (ldtype y) /\
  forall ls v, cell y ls = Some v -> exists w, cell z ls = Some w /\ neg_value v w.
Proof.
  intros Hy. unfold larry_neg. rewrite bind_ok. intros (x & Hx & [= <-]). unfold np_neg in Hx.
  change (nd_dtype (lx y)) with (ldtype y) in Hx. change (nd_arr (lx y)) with (larr y) in Hx.
  destruct (ldtype y) eqn:E; try done; injection Hx as <-;
   (match goal with |- valid (Larry (Nda ?dt (amap ?f _)) _) /\ _ => destruct (map_valid y dt f Hy) as [Hv Hc] end;
    [rewrite E; by intros []|]);
   (split_and!; [done|done|done|unfold arithmetic; tauto|]); intros ls v Hc1;
   rewrite Hc, Hc1; simpl; (eexists; split; [reflexivity|]);
   apply (valid_cell_typed _ _ _ Hy) in Hc1; rewrite E in Hc1; destruct v; try done; simpl.
  - by eexists.
  - eexists. split; [done|]. simpl. unfold num_of_Z. simpl. by rewrite Z2Qc_inj_opp.
Qed.
Lemma num_neg_sub a b : num_neg (num_sub a b) = num_sub b a.
Proof. destruct a, b; simpl; try done. f_equal. ring. Qed.
Lemma neg_sub_value u v w x :
  ~ (has_dtype DBool u = true /\ has_dtype DBool v = true) -> (has_dtype DBool w = true -> False) ->
  arith_value ASub u v w -> neg_value w x -> arith_value ASub v u x.
Proof.
  intros Hb Hw H Hn.
  assert (G : exists n1 n2, to_num u = Some n1 /\ to_num v = Some n2 /\ to_num w = Some (num_sub n1 n2)).
  { unfold arith_value in H. destruct u, v; simpl in Hb; try (destruct H as (n1 & n2 & ? & ? & H); exists n1, n2; by rewrite decide_False in H by (by intros [? _])).
    by destruct Hb. }
  destruct G as (n1 & n2 & H1 & H2 & H3).
  assert (Hx : to_num x = Some (num_neg (num_sub n1 n2))).
  { unfold neg_value in Hn. destruct w; [..|exfalso; by apply Hw| | |]; destruct Hn as (m & E & Hn); rewrite E in H3; by injection H3 as ->. }
  rewrite num_neg_sub in Hx.
  assert (R : exists n1 n2, to_num v = Some n1 /\ to_num u = Some n2 /\
      if decide (ASub = AFloorDiv /\ n2 = num_of_Z 0 /\ has_dtype DFloat v = false /\ has_dtype DFloat u = false)
      then x = VInt 0 else to_num x = Some (arith_num ASub n1 n2)).
  { exists n2, n1. split_and!; [done..|]. by rewrite decide_False by (by intros [? _]). }
  unfold arith_value. destruct v, u; try exact R. by destruct Hb.
Qed.

(** The result of [op] between a scalar and a larry, in this order. *)
Lemma rarith_scalar op y v z :
  valid y -> larry_rarith op y (OpScalar v) = Ok z ->
  ~ (op = ASub /\ ldtype y = DBool /\ has_dtype DBool v = true) ->
  valid z /\ llabel z = llabel y /\
  forall ls u, cell y ls = Some u -> exists w, cell z ls = Some w /\ arith_value op v u w.
Proof.
  intros Hy H Hb.
  assert (Hcomm : op = AAdd \/ op = AMul -> larry_arith op y (OpScalar v) = Ok z ->
    valid z /\ llabel z = llabel y /\ forall ls u, cell y ls = Some u -> exists w, cell z ls = Some w /\ arith_value op v u w).
  { intros Hop H'. destruct (arith_scalar op y v z Hy H') as (? & ? & Hc). split_and!; try done. intros ls u Hu.
    destruct (Hc ls u Hu) as (w & ? & ?). exists w. split; [done|]. by apply arith_value_comm. }
  assert (Hdiv : larry_rdivide op y (OpScalar v) = Ok z ->
    valid z /\ llabel z = llabel y /\ forall ls u, cell y ls = Some u -> exists w, cell z ls = Some w /\ arith_value op v u w).
  { intros H'. unfold larry_rdivide in H'. apply bind_ok in H' as (a & Ha & H'). apply scalar_nda_spec in Ha as (Hw & Hs & Hg & _).
    destruct (rdivide_array op y a z) as (Hv & HL & Hc); [done|done|rewrite Hs; apply fits_nil|done|].
    split_and!; try done. intros ls u Hu. assert (Hu' := Hu). apply cell_Some in Hu' as (idx & Hl & _); [|exact (valid_nodup _ Hy)].
    destruct (Hc idx ls Hl) as (idx' & u' & v' & w & Hbi & Hu' & Hv' & HR & Hz). rewrite Hs in Hbi. apply broadcast_nil in Hbi as ->.
    exists w. split; [done|]. congruence. }
  destruct op; simpl in H; try (by apply Hcomm; auto); try (by apply Hdiv).
  unfold larry_rsub in H. apply bind_ok in H as (y' & Hy' & Hn).
  assert (Hdt : ldtype y' <> DBool).
  { unfold larry_arith, larry_binary in Hy'. apply bind_ok in Hy' as (a & Ha & Hy').
    pose proof (scalar_nda_spec _ _ Ha) as (Hw & Hs & Hg & Ht).
    destruct (arith_array ASub y a y') as (_ & _ & HD & _); [done|done|rewrite Hs; apply fits_nil|done|].
    rewrite HD. repeat case_decide; try done. destruct H0 as (E1 & E2 & _). rewrite E2 in Ht. tauto. }
  destruct (arith_scalar ASub y v y' Hy Hy') as (Hv' & HL' & Hc'). destruct (neg_spec y' z Hv' Hn) as (Hvz & HLz & _ & _ & Hcz).
  split_and!; [done|congruence|]. intros ls u Hu. destruct (Hc' ls u Hu) as (w & Hw & HR). destruct (Hcz ls w Hw) as (x & Hx & Hnx).
  exists x. split; [done|]. eapply neg_sub_value; try done.
  - intros [E1 E2]. apply Hb. split_and!; try done.
    apply (valid_cell_typed _ _ _ Hy) in Hu. apply (valid_cell_typed _ _ _ Hv') in Hw.
    unfold larry_arith, larry_binary in Hy'. apply bind_ok in Hy' as (a & Ha & Hy').
    destruct v; try done. simpl in Ha. injection Ha as <-.
    destruct u; try done. destruct (ldtype y) eqn:E; try done.
    apply bind_ok in Hy' as (r & Hr & _). unfold np_arith in Hr. change (nd_dtype (lx y)) with (ldtype y) in Hr. by rewrite E in Hr.
  - intros Hwb. apply (valid_cell_typed _ _ _ Hv') in Hw. destruct w; try done. destruct (ldtype y') eqn:E; try done.
    apply (neg_spec y' z Hv') in Hn as (_ & _ & _ & Ha & _). rewrite E in Ha. unfold arithmetic in Ha. naive_solver.
Qed.
Lemma rarith_scalar_ok op y v : valid y -> arithmetic (ldtype y) -> is_Some (to_num v) -> exists z, larry_rarith op y (OpScalar v) = Ok z.
Proof.
  intros Hy H1 Hn. assert (Hdiv : exists z, larry_rdivide op y (OpScalar v) = Ok z).
  { unfold larry_rdivide. assert (exists a, scalar_nda v = Ok a /\ arithmetic (nd_dtype a)) as (a & Ha & Hd).
    { destruct Hn. destruct v; try done; (eexists; split; [reflexivity|]); unfold arithmetic; simpl; tauto. }
    rewrite Ha. simpl. apply scalar_nda_spec in Ha as (Hw & Hs & _ & _).
    unfold np_arith. destruct (arith_dtype op (nd_dtype a) (nd_dtype (lx y))) as [dt|] eqn:E.
    - simpl. rewrite elementwise_swap. destruct (elementwise_fits_ok dt (fun u v => arith_elem op dt v u) (lx y) a) as [r ->];
        [apply Hy|done|rewrite Hs; apply fits_nil| |simpl; eauto].
      intros u w Hu Hw'. destruct (arith_elem_ok op _ _ dt w u Hd H1 E Hw' Hu). eauto.
    - exfalso. unfold arithmetic in *. change (nd_dtype (lx y)) with (ldtype y) in E. destruct (nd_dtype a), (ldtype y); naive_solver. }
  destruct op; simpl; try done; try (by apply arith_scalar_ok).
  unfold larry_rsub. destruct (arith_scalar_ok ASub y v Hy H1 Hn) as [y' Hy']. rewrite Hy'. simpl.
  destruct (arith_scalar ASub y v y' Hy Hy') as (Hv' & HL' & Hc').
  assert (Hd : arithmetic (ldtype y')).
  { unfold larry_arith, larry_binary in Hy'. apply bind_ok in Hy' as (a & Ha & Hy').
    pose proof (scalar_nda_spec _ _ Ha) as (Hw & Hs & Hg & Ht).
    destruct (arith_array ASub y a y') as (_ & _ & HD & _); [done|done|rewrite Hs; apply fits_nil|done|].
    rewrite HD. unfold arithmetic. repeat case_decide; tauto. }
  unfold larry_neg, np_neg. change (nd_dtype (lx y')) with (ldtype y'). destruct Hd as [->|[->| ->]]; simpl; eauto.
Qed.

(** * Elementwise methods *)
Lemma Qc_ltb_Z a b : Qc_ltb (Qc_of_Z a) (Qc_of_Z b) = bool_decide (a < b)%Z.
Proof.
  unfold Qc_ltb, Qccompare, Qc_of_Z, Qcompare. simpl. rewrite !Z.mul_1_r.
  case_bool_decide as H; unfold Z.lt in H; [by rewrite H|]. by destruct (a ?= b)%Z.
Qed.
Lemma num_abs_Z z : num_abs (num_of_Z z) = num_of_Z (Z.abs z).
Proof.
  unfold num_of_Z. cbn [num_abs]. f_equal.
  rewrite <-Z2Qc_inj_0, Qc_ltb_Z. case_bool_decide.
  - rewrite Z.abs_neq by lia. by rewrite Z2Qc_inj_opp.
  - by rewrite Z.abs_eq by lia.
Qed.
Lemma num_sign_Z z : num_sign (num_of_Z z) = num_of_Z (Z.sgn z).
Proof.
  unfold num_of_Z at 1. cbn [num_sign]. rewrite <-Z2Qc_inj_0, !Qc_ltb_Z. case_bool_decide; [by rewrite Z.sgn_neg by lia|].
  case_bool_decide; [by rewrite Z.sgn_pos by lia|]. by replace z with 0%Z by lia.
Qed.
Ltac map_method y E :=
  match goal with
  | H : Ok (Larry (Nda ?dt (amap ?f _)) _) = Ok ?z, Hy : valid y |- _ =>
      let Hv := fresh "Hv" in let Hc := fresh "Hc" in
      destruct (map_valid y dt f Hy) as [Hv Hc]; [rewrite E; by intros []|]; injection H as <-
  end.
Lemma abs_spec_raw y z :
  valid y -> larry_abs y = Ok z ->
  valid z /\ llabel z = llabel y /\ ldtype z = ldtype y /\
  forall ls v, cell y ls = Some v -> exists n w, to_num v = Some n /\ cell z ls = Some w /\ to_num w = Some (num_abs n).
Proof.
  intros Hy H. unfold larry_abs in H. destruct (ldtype y) eqn:E; try done.
  - map_method y E. split_and!; try done. intros ls v Hv'. rewrite Hc, Hv'. simpl.
    apply (valid_cell_typed _ _ _ Hy) in Hv'. rewrite E in Hv'. destruct v; try done. eauto.
  - map_method y E. split_and!; try done. intros ls v Hv'. rewrite Hc, Hv'. cbn [fmap option_fmap option_map].
    apply (valid_cell_typed _ _ _ Hy) in Hv'. rewrite E in Hv'. destruct v; try done.
    do 2 eexists. split; [reflexivity|]. split; [reflexivity|]. by rewrite num_abs_Z.
  - injection H as <-. split_and!; try done. intros ls v Hv'.
    assert (Ht := Hv'). apply (valid_cell_typed _ _ _ Hy) in Ht. rewrite E in Ht. destruct v; try done.
    do 2 eexists. split; [reflexivity|]. split; [done|]. cbn [to_num]. rewrite num_abs_Z. by destruct b.
Qed.
Lemma sign_spec_raw y z :
  valid y -> larry_sign y = Ok z ->
  valid z /\ llabel z = llabel y /\ ldtype z = (if decide (ldtype y = DBool) then DInt else ldtype y) /\
  forall ls v, cell y ls = Some v -> exists n w, to_num v = Some n /\ cell z ls = Some w /\ to_num w = Some (num_sign n).
Proof.
  intros Hy H. unfold larry_sign in H. destruct (ldtype y) eqn:E; try done;
    map_method y E; (split_and!; try done); intros ls v Hv'; rewrite Hc, Hv'; cbn [fmap option_fmap option_map];
    apply (valid_cell_typed _ _ _ Hy) in Hv'; rewrite E in Hv'; destruct v; try done;
    do 2 eexists; (split; [reflexivity|]); (split; [reflexivity|]); cbn [to_num]; rewrite ?num_sign_Z; try done.
  by destruct b.
Qed.
Lemma test_spec p y x :
  valid y -> np_test p (lx y) = Ok x ->
  arithmetic (ldtype y) /\ valid (Larry x (llabel y)) /\ nd_dtype x = DBool /\
  forall ls v, cell y ls = Some v -> exists n, to_num v = Some n /\ cell (Larry x (llabel y)) ls = Some (VBool (p n)).
Proof.
  intros Hy H. unfold np_test in H. change (nd_dtype (lx y)) with (ldtype y) in H. change (nd_arr (lx y)) with (larr y) in H.
  assert (Ha : arithmetic (ldtype y)) by (unfold arithmetic; destruct (ldtype y); try done; tauto).
  split; [done|].
  assert (H' : Ok (Nda DBool (amap (fun v => match to_num v with Some n => VBool (p n) | None => v end) (larr y))) = Ok x).
  { unfold arithmetic in Ha. destruct (ldtype y); done || naive_solver. }
  injection H' as <-. clear H.
  destruct (map_valid y DBool (fun v => match to_num v with Some n => VBool (p n) | None => v end) Hy) as [Hv Hc].
  { intros v Hv. destruct Ha as [E|[E|E]]; rewrite E in Hv; by destruct v. }
  split_and!; try done. intros ls v Hv'. rewrite Hc, Hv'. apply (valid_cell_typed _ _ _ Hy) in Hv'.
  destruct Ha as [E|[E|E]]; rewrite E in Hv'; destruct v; try done; simpl; eauto.
Qed.
Lemma test_ok p y : arithmetic (ldtype y) -> exists x, np_test p (lx y) = Ok x.
Proof.
  unfold arithmetic, np_test. change (nd_dtype (lx y)) with (ldtype y). intros [->|[->| ->]]; eauto.
Qed.
Lemma larry_test_spec p y z :
  valid y -> (x ← np_test p (lx y); Ok (Larry x (llabel y))) = Ok z ->
  arithmetic (ldtype y) /\ valid z /\ llabel z = llabel y /\ ldtype z = DBool /\
  forall ls v, cell y ls = Some v -> exists n, to_num v = Some n /\ cell z ls = Some (VBool (p n)).
Proof.
  intros Hy. rewrite bind_ok. intros (x & Hx & [= <-]). destruct (test_spec p y x Hy Hx) as (? & ? & ? & ?). done.
Qed.
Lemma larry_test_ok p y : arithmetic (ldtype y) -> exists z, (x ← np_test p (lx y); Ok (Larry x (llabel y))) = Ok z.
Proof. intros Ha. destruct (test_ok p y Ha) as [x ->]. simpl. eauto. Qed.
Lemma invert_spec y z :
  valid y -> larry_invert y = Ok z ->
  ldtype y = DBool /\ valid z /\ llabel z = llabel y /\ ldtype z = DBool /\
  forall ls v, cell y ls = Some v -> cell z ls = Some (VBool (negb (val_truth v))).
Proof.
  intros Hy H. unfold larry_invert in H. destruct (ldtype y) eqn:E; try done.
  map_method y E. split_and!; try done. intros ls v Hv'. rewrite Hc, Hv'.
  apply (valid_cell_typed _ _ _ Hy) in Hv'. rewrite E in Hv'. by destruct v.
Qed.
Lemma invert_bool y z :
  valid y -> larry_invert y = Ok z ->
  ldtype y = DBool /\ valid z /\ llabel z = llabel y /\ ldtype z = DBool /\
  forall ls v, cell y ls = Some v -> exists b, v = VBool b /\ cell z ls = Some (VBool (negb b)).
Proof.
  intros Hy H. destruct (invert_spec y z Hy H) as (Hd & Hz & Hl & Hdz & Hc). split_and!; try done. intros ls v Hv.
  specialize (Hc ls v Hv). apply (valid_cell_typed _ _ _ Hy) in Hv. rewrite Hd in Hv. destruct v; try done. eauto.
Qed.
Lemma unary_ok y : arithmetic (ldtype y) ->
  (exists z, larry_neg y = Ok z) /\ (exists z, larry_abs y = Ok z) /\ (exists z, larry_sign y = Ok z).
Proof.
  unfold arithmetic, larry_neg, np_neg, larry_abs, larry_sign. change (nd_dtype (lx y)) with (ldtype y).
  intros [->|[->| ->]]; simpl; eauto 10.
Qed.
Lemma invert_ok y : (exists z, larry_invert y = Ok z) <-> ldtype y = DBool.
Proof. unfold larry_invert. split; [intros [z H]; by destruct (ldtype y)|intros ->; eauto]. Qed.
Lemma invert_invol y z : valid y -> larry_invert y = Ok z -> larry_invert z = Ok y.
Proof.
  intros Hy Hz. destruct (invert_spec y z Hy Hz) as (Hd & Hv & HL & Hdz & Hc).
  destruct (proj2 (invert_ok z) Hdz) as [w Hw]. rewrite Hw. f_equal.
  destruct (invert_spec z w Hv Hw) as (_ & Hvw & HLw & Hdw & Hcw). apply larry_ext; try done; [congruence|congruence|].
  intros ls Hg. assert (Hgy : in_grid (llabel y) ls) by (by rewrite <-HL, <-HLw).
  apply valid_cell_grid in Hgy as [v Hcv]; [|done]. rewrite (Hcw ls _ (Hc ls v Hcv)). rewrite Hcv. f_equal.
  apply (valid_cell_typed _ _ _ Hy) in Hcv. rewrite Hd in Hcv. destruct v; try done. simpl. by rewrite negb_involutive.
Qed.
Lemma neg_invol y z : valid y -> larry_neg y = Ok z -> larry_neg z = Ok y.
Proof.
  intros Hy Hz. destruct (neg_spec y z Hy Hz) as (Hv & HL & Hd & Ha & Hc).
  destruct (unary_ok z) as ([w Hw] & _); [by rewrite Hd|]. rewrite Hw. f_equal.
  destruct (neg_spec z w Hv Hw) as (Hvw & HLw & Hdw & _ & Hcw). apply larry_ext; try done; [congruence|congruence|].
  intros ls Hg. assert (Hgy : in_grid (llabel y) ls) by (by rewrite <-HL, <-HLw).
  apply valid_cell_grid in Hgy as [v Hcv]; [|done]. destruct (Hc ls v Hcv) as (u & Hu & Hn1). destruct (Hcw ls u Hu) as (x & Hx & Hn2).
  rewrite Hx, Hcv. f_equal.
  apply (valid_cell_typed _ _ _ Hy) in Hcv. apply (valid_cell_typed _ _ _ Hv) in Hu. apply (valid_cell_typed _ _ _ Hvw) in Hx.
  rewrite Hdw, Hd in Hx. rewrite Hd in Hu.
  assert (Hnn : forall n, num_neg (num_neg n) = n). { intros []; simpl; try done. f_equal. ring. }
  destruct Ha as [E|[E|E]]; rewrite E in Hcv, Hu, Hx; destruct v, u, x; try done; simpl in Hn1, Hn2.
  - destruct Hn1 as (n1' & [= <-] & [= ->]), Hn2 as (n2' & [= <-] & [= ->]). by rewrite Hnn.
  - destruct Hn1 as (n1' & [= <-] & Hn1), Hn2 as (n2' & [= <-] & Hn2). 
    f_equal. unfold num_of_Z in *. cbn [num_neg] in *. apply (inj Some) in Hn1, Hn2.
    assert (Hi : forall a b, Fin a = Fin b -> a = b) by congruence. apply Hi in Hn1, Hn2. apply Z2Qc_inj_iff. rewrite Hn2, Hn1. ring.
  - injection Hn1 as ->. injection Hn2 as ->. by rewrite negb_involutive.
Qed.
Lemma num_abs_of n : abs_of n (num_abs n).
Proof.
  unfold abs_of. destruct (decide (n = NaN)) as [->|Hn]; [done|]. destruct n as [q| | |]; simpl; try done; [|naive_solver..].
  destruct (Qc_ltb q 0) eqn:E.
  - split; [|by right]. rewrite Z2Qc_inj_0. intros Hl.
    assert (H0 : num_lt (Fin q) (Fin 0)) by (by apply num_ltb_spec). simpl in H0.
    apply (Qclt_not_le _ _ Hl). apply Qclt_le_weak. by apply Qclt_minus_iff in H0; rewrite Qcplus_0_l in H0.
  - split; [|by left]. rewrite Z2Qc_inj_0. intros Hl.
    assert (H0 : num_ltb (Fin q) (Fin 0) = true) by (by apply num_ltb_spec). simpl in H0. congruence.
Qed.
Lemma num_sign_of n : sign_of n (num_sign n).
Proof.
  unfold sign_of. destruct n as [q| | |]; simpl; split_and!; try done; rewrite ?Z2Qc_inj_0.
  - intros H. assert (H0 : num_ltb (Fin q) (Fin 0) = true) by (by apply num_ltb_spec). simpl in H0. by rewrite H0.
  - intros [[= ->] _]. done.
  - intros H. assert (H0 : num_ltb (Fin 0) (Fin q) = true) by (by apply num_ltb_spec). simpl in H0. rewrite H0.
    destruct (Qc_ltb q 0) eqn:E; [|done]. exfalso. assert (H1 : num_lt (Fin q) (Fin 0)) by (by apply num_ltb_spec). simpl in H1.
    apply (Qclt_not_le _ _ H). by apply Qclt_le_weak.
  - by intros [? _].
  - by intros [? _].
  - by intros [? ?].
Qed.
Lemma larry_abs_spec y z :
  valid y -> larry_abs y = Ok z ->
  valid z /\ llabel z = llabel y /\ ldtype z = ldtype y /\
  forall ls v, cell y ls = Some v -> exists n w m, to_num v = Some n /\ cell z ls = Some w /\ to_num w = Some m /\ abs_of n m.
Proof.
  intros Hy H. destruct (abs_spec_raw y z Hy H) as (? & ? & ? & Hc). split_and!; try done. intros ls v Hv.
  destruct (Hc ls v Hv) as (n & w & ? & ? & ?). exists n, w, (num_abs n). split_and!; try done. apply num_abs_of.
Qed.
Lemma larry_sign_spec y z :
  valid y -> larry_sign y = Ok z ->
  valid z /\ llabel z = llabel y /\ ldtype z = (if decide (ldtype y = DBool) then DInt else ldtype y) /\
  forall ls v, cell y ls = Some v -> exists n w m, to_num v = Some n /\ cell z ls = Some w /\ to_num w = Some m /\ sign_of n m.
Proof.
  intros Hy H. destruct (sign_spec_raw y z Hy H) as (? & ? & ? & Hc). split_and!; try done. intros ls v Hv.
  destruct (Hc ls v Hv) as (n & w & ? & ? & ?). exists n, w, (num_sign n). split_and!; try done. apply num_sign_of.
Qed.
Lemma larry_test_iff (P : num -> Prop) p y z :
  (forall n, p n = true <-> P n) ->
  valid y -> (x ← np_test p (lx y); Ok (Larry x (llabel y))) = Ok z ->
  arithmetic (ldtype y) /\ valid z /\ llabel z = llabel y /\ ldtype z = DBool /\
  forall ls v, cell y ls = Some v -> exists n b, to_num v = Some n /\ cell z ls = Some (VBool b) /\ (b = true <-> P n).
Proof.
  intros HP Hy H. destruct (larry_test_spec p y z Hy H) as (? & ? & ? & ? & Hc). split_and!; try done.
  intros ls v Hv. destruct (Hc ls v Hv) as (n & Hn & Hz). exists n, (p n). by split_and!.
Qed.
Lemma is_nan_iff n : is_nan n = true <-> n = NaN.
Proof. by destruct n. Qed.
Lemma is_finite_iff n : is_finite n = true <-> exists q, n = Fin q.
Proof. destruct n; naive_solver. Qed.
Lemma is_inf_iff n : is_inf n = true <-> n = PInf \/ n = NInf.
Proof. destruct n; naive_solver. Qed.

(** ** Exact conditions *)
Lemma arith_dtype_arithmetic op dt1 dt2 dt : arith_dtype op dt1 dt2 = Ok dt -> arithmetic dt1 /\ arithmetic dt2.
Proof. unfold arithmetic. destruct dt1, dt2; simpl; try done; tauto. Qed.
Lemma arith_array_iff op y a :
  valid y -> nda_wf a -> fits (nd_shape a) (lshape y) ->
  (exists z, larry_arith op y (OpArr a) = Ok z) <-> arithmetic (ldtype y) /\ arithmetic (nd_dtype a).
Proof.
  intros Hy Ha Hf. split; [|intros [? ?]; by apply arith_array_ok]. intros [z H]. unfold larry_arith, larry_binary in H.
  apply bind_ok in H as (r & H & _). apply bind_ok in H as (dt & H & _). by eapply arith_dtype_arithmetic.
Qed.
Lemma scalar_nda_num v a : scalar_nda v = Ok a -> arithmetic (nd_dtype a) -> is_Some (to_num v).
Proof. unfold arithmetic. destruct v; simpl; try done; intros [= <-]; simpl; intros H; try (eexists; reflexivity); destruct H as [?|[?|?]]; done. Qed.
Lemma arith_scalar_iff op y v :
  valid y -> (exists z, larry_arith op y (OpScalar v) = Ok z) <-> arithmetic (ldtype y) /\ is_Some (to_num v).
Proof.
  intros Hy. split; [|intros [? ?]; by apply arith_scalar_ok]. intros [z H]. unfold larry_arith, larry_binary in H.
  apply bind_ok in H as (a & Ha & H). apply bind_ok in H as (r & H & _). apply bind_ok in H as (dt & H & _).
  apply arith_dtype_arithmetic in H as [? ?]. split; [done|by eapply scalar_nda_num].
Qed.
Lemma rarith_scalar_iff op y v :
  valid y -> (exists z, larry_rarith op y (OpScalar v) = Ok z) <-> arithmetic (ldtype y) /\ is_Some (to_num v).
Proof.
  intros Hy. split; [|intros [? ?]; by apply rarith_scalar_ok]. intros [z H].
  assert (Hdiv : larry_rdivide op y (OpScalar v) = Ok z -> arithmetic (ldtype y) /\ is_Some (to_num v)).
  { unfold larry_rdivide. intros H'. apply bind_ok in H' as (a & Ha & H'). apply bind_ok in H' as (r & H' & _). apply bind_ok in H' as (dt & H' & _).
    apply arith_dtype_arithmetic in H' as [? ?]. split; [done|by eapply scalar_nda_num]. }
  destruct op; simpl in H; try (by apply Hdiv).
  - exact (proj1 (arith_scalar_iff AAdd y v Hy) (ex_intro _ _ H)).
  - unfold larry_rsub in H. apply bind_ok in H as (y' & H & _). exact (proj1 (arith_scalar_iff ASub y v Hy) (ex_intro _ _ H)).
  - exact (proj1 (arith_scalar_iff AMul y v Hy) (ex_intro _ _ H)).
Qed.
Lemma unary_iff y :
  ((exists z, larry_neg y = Ok z) <-> arithmetic (ldtype y)) /\ ((exists z, larry_abs y = Ok z) <-> arithmetic (ldtype y)) /\
  ((exists z, larry_sign y = Ok z) <-> arithmetic (ldtype y)).
Proof.
  split_and!; (split; [|intros; by apply unary_ok]); intros [z H]; unfold arithmetic, larry_neg, np_neg, larry_abs, larry_sign in *;
    change (nd_dtype (lx y)) with (ldtype y) in *; destruct (ldtype y); try done; tauto.
Qed.
