(** Exact conditions for the success of keep_label and pull. *)
From Verif Require Export LarryMove.

Lemma label_test_ok_defined op z b : label_test op z = Ok b -> op_defined op z.
Proof.
  destruct op; simpl; try done; unfold lab_ltR, lab_leR; destruct (bool_decide _ || comparable _ _) eqn:E; try done;
    intros _; apply orb_true_iff in E as [E%bool_decide_eq_true|E]; auto.
Qed.
Lemma positions_each {A} (f : A -> res bool) l idx x : positions f l = Ok idx -> x ∈ l -> exists b, f x = Ok b.
Proof.
  unfold positions. generalize 0. revert idx. induction l as [|a l IH]; intros idx n; simpl; [by intros _ ?%elem_of_nil|].
  intros (b & Hb & (r & Hr & _)%bind_ok)%bind_ok [-> |Hx]%elem_of_cons; [by exists b|by eapply IH].
Qed.
Lemma keep_label_iff y op axis :
  valid y ->
  (exists y', keep_label y op (Some axis) = Ok y') <->
  exists ax l, axis_is y axis ax /\ llabel y !! ax = Some l /\ forall z, z ∈ l -> op_defined op z.
Proof.
  intros Hv. setoid_rewrite <-py_axis_is. split; [|intros (ax & l & ? & ? & ?); by eapply keep_label_ok].
  intros [y' H]. unfold keep_label in H. cbn [of_opt mbind res_bind] in H.
  destruct (decide (Z.of_nat (lndim y) <= axis)%Z) as [|Hlt]; [done|].
  apply bind_ok in H as (ax & Hax & H). apply bind_ok in H as (l & Hl & H). apply bind_ok in H as (idx & Hidx & _).
  apply axis_label_ok in Hl. exists ax, l. split_and!; [done..|]. intros z Hz.
  destruct (positions_each _ _ _ _ Hidx Hz) as [b Hb]. by eapply label_test_ok_defined.
Qed.
Lemma keep_label_undefined y op axis ax l z :
  valid y -> axis_is y axis ax -> llabel y !! ax = Some l -> z ∈ l -> ~ op_defined op z ->
  keep_label y op (Some axis) = Err TypeError.
Proof.
  intros Hv Hax Hl Hz Hnd. apply py_axis_is in Hax. unfold keep_label. cbn [of_opt mbind res_bind]. pose proof (valid_ndim y Hv).
  rewrite decide_False by (apply py_axis_ok in Hax; lia). rewrite Hax. cbn [mbind res_bind].
  rewrite (proj2 (axis_label_ok _ _ _) Hl). cbn [mbind res_bind]. destruct (positions (label_test op) l) as [idx|e] eqn:E.
  - destruct (positions_each _ _ _ _ E Hz) as [b Hb]. destruct Hnd. by eapply label_test_ok_defined.
  - apply positions_err in E as (x & _ & E). cbn [mbind res_bind]. f_equal. destruct op; simpl in E; try done;
      unfold lab_ltR, lab_leR in E; destruct (bool_decide _ || comparable _ _); try done; congruence.
Qed.
(** One label left on one remaining axis: a scalar. *)
Lemma pull_scalar y name axis ax l n :
  valid y -> axis_is y axis ax -> llabel y !! ax = Some l -> name ∈ l -> remove_at ax (llabel y) = [[n]] ->
  exists v, pull y name (Some axis) = Ok (OVal v) /\ cell y (insert_at ax name [n]) = Some v.
Proof.
  intros Hv Hax Hl Hn Hr. assert (Hp : py_axis y axis = Ok ax) by (by apply py_axis_is).
  destruct (pull_ok y name axis ax l Hv Hp Hl Hn) as [o Ho]. rewrite Ho. unfold pull in Ho. cbn [of_opt mbind res_bind] in Ho.
  rewrite Hp in Ho. cbn [mbind res_bind] in Ho. apply bind_ok in Ho as (idx & Hidx & H).
  apply labelindex_exact in Hidx as (ax' & l' & Hp' & Hl' & Hi); [|done]. rewrite Hp in Hp'. injection Hp' as <-. simplify_eq.
  assert (Hlen : length (llabel y) = 2).
  { pose proof (remove_at_length ax (llabel y) (lookup_lt_Some _ _ _ Hl)) as E. rewrite Hr in E. cbn in E. pose proof (lookup_lt_Some _ _ _ Hl). lia. }
  rewrite decide_False in H by (rewrite <-(valid_ndim y Hv), Hlen; lia). apply bind_ok in H as (b & Hb%of_opt_ok & H).
  destruct (pick_grid y ax l idx name b) as [Hvz Hc]; [done| |done..|].
  { rewrite <-(valid_ndim y Hv), Hlen. lia. }
  rewrite Hr in Hvz, Hc.
  assert (Hs : shape b = [1]). { by apply valid_shape in Hvz. }
  rewrite decide_True in H by done. apply bind_ok in H as (v & Hv'%of_opt_ok & [= <-]). exists v. split; [done|].
  rewrite <-(Hc [n]); [|by repeat constructor]. rewrite (cell_at _ [0]); [done|by destruct Hvz as (_ & _ & _ & ?)|]. by repeat constructor.
Qed.
Lemma pull_iff y name axis :
  valid y ->
  (exists o, pull y name (Some axis) = Ok o) <-> exists ax l, axis_is y axis ax /\ llabel y !! ax = Some l /\ name ∈ l.
Proof.
  intros Hv. setoid_rewrite <-py_axis_is. split; [|intros (ax & l & ? & ? & ?); by eapply pull_ok].
  intros [o H]. unfold pull in H. cbn [of_opt mbind res_bind] in H. apply bind_ok in H as (ax & Hax & H).
  apply bind_ok in H as (idx & Hidx & _). apply labelindex_exact in Hidx as (ax' & l & Hp' & Hl & Hi); [|done].
  rewrite Hax in Hp'. injection Hp' as <-. exists ax, l. split_and!; [done..|]. by eapply elem_of_list_lookup_2.
Qed.
