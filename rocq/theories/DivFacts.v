(** True division in the two versions of Python. *)
From Verif Require Export OpsBinary.

(** With a float on one side the two divisions of numpy agree, without floats
    the old one is floor division. *)
Lemma elementwise_feq dt f g x y : (forall u v, f u v = g u v) -> elementwise dt f x y = elementwise dt g x y.
Proof.
  intros H. unfold elementwise. destruct (bshape _ _) as [sh|]; [|done]. simpl. do 2 f_equal. unfold build. f_equal.
  apply mapM_ext. intros idx. destruct (aget _ _); [|done]. simpl. destruct (aget _ _); [simpl; by rewrite H|done].
Qed.
Lemma old_div_float x y : nd_dtype x = DFloat \/ nd_dtype y = DFloat -> np_arith AOldDiv x y = np_arith ADiv x y.
Proof.
  intros H. unfold np_arith.
  assert (arith_dtype AOldDiv (nd_dtype x) (nd_dtype y) = arith_dtype ADiv (nd_dtype x) (nd_dtype y) /\
    (arith_dtype ADiv (nd_dtype x) (nd_dtype y) = Ok DFloat \/ exists e, arith_dtype ADiv (nd_dtype x) (nd_dtype y) = Err e)) as [-> [->|[e ->]]].
  { destruct H as [-> | ->]; split; [by destruct (nd_dtype y)| |by destruct (nd_dtype x)|];
      [destruct (nd_dtype y)|destruct (nd_dtype x)]; simpl; eauto. }
  - simpl. by apply elementwise_feq.
  - done.
Qed.
Lemma old_div_floor x y : nd_dtype x <> DFloat -> nd_dtype y <> DFloat -> np_arith AOldDiv x y = np_arith AFloorDiv x y.
Proof.
  intros H1 H2. unfold np_arith. destruct (nd_dtype x), (nd_dtype y); try done; simpl; by apply elementwise_feq.
Qed.

(** The same for larrys. *)
Definition operand_dtype (o : operand) : option dtype :=
  match o with
  | OpLarry y => Some (ldtype y) | OpArr a | OpList a => Some (nd_dtype a) | OpScalar v => scalar_dtype v | OpOther => None
  end.
Lemma binary_feq f g y o :
  valid y -> operand_valid o ->
  (forall a b, nd_dtype a = ldtype y -> operand_dtype o = Some (nd_dtype b) -> f a b = g a b) ->
  larry_binary f y o = larry_binary g y o.
Proof.
  intros H1 Ho H. destruct o as [y'|a|v|a|]; [| | |done..]; unfold larry_binary.
  - simpl in Ho. case_decide; [by rewrite H|]. destruct (op_align y y') as [[[x1 x2] label]|] eqn:E; [|done]. simpl.
    apply op_align_spec in E as (_ & _ & _ & H3 & H4 & _); [|done|done]. by rewrite H; [|done|rewrite H4].
  - by rewrite H.
  - destruct (scalar_nda v) as [a|] eqn:E; [|done]. simpl. rewrite H; [done..|]. unfold scalar_nda in E.
    simpl in *. destruct (scalar_dtype v); [|done]. by injection E as <-.
Qed.
Lemma rdivide_feq op op' y o :
  (forall a b, nd_dtype a = ldtype y -> operand_dtype o = Some (nd_dtype b) -> np_arith op b a = np_arith op' b a) ->
  larry_rdivide op y o = larry_rdivide op' y o.
Proof.
  intros H. destruct o as [y'|a|v|a|]; [done| | |done..]; unfold larry_rdivide.
  - by rewrite H.
  - destruct (scalar_nda v) as [a|] eqn:E; [|done]. simpl. rewrite H; [done..|]. unfold scalar_nda in E.
    simpl in *. destruct (scalar_dtype v); [|done]. by injection E as <-.
Qed.
Lemma has_float_dtype o : has_float o <-> operand_dtype o = Some DFloat.
Proof. destruct o as [y'|a|v|a|]; simpl; try (split; congruence); [|done]. split; [by intros [n ->]|]. destruct v; try done. by eexists. Qed.
Lemma truediv_float y o :
  valid y -> operand_valid o ->
  ldtype y = DFloat \/ has_float o ->
  larry_truediv Py2 y o = larry_truediv Py3 y o /\ larry_rtruediv Py2 y o = larry_rtruediv Py3 y o.
Proof.
  intros Hy Ho H. rewrite has_float_dtype in H. split.
  - apply binary_feq; [done|done|]. intros a b Ha Hb. apply old_div_float. destruct H as [H|H]; [left; congruence|right; congruence].
  - apply rdivide_feq. intros a b Ha Hb. apply old_div_float. destruct H as [H|H]; [right; congruence|left; congruence].
Qed.
Lemma truediv_floor y o :
  valid y -> operand_valid o ->
  ldtype y <> DFloat -> ~ has_float o ->
  larry_truediv Py2 y o = larry_arith AFloorDiv y o /\ larry_rtruediv Py2 y o = larry_rdivide AFloorDiv y o.
Proof.
  intros Hy Ho H1 H2. rewrite has_float_dtype in H2. split.
  - apply binary_feq; [done|done|]. intros a b Ha Hb. apply old_div_floor; congruence.
  - apply rdivide_feq. intros a b Ha Hb. apply old_div_floor; congruence.
Qed.
(** Division of Python 3. *)
Lemma truediv_larry y1 y2 z :
  valid y1 -> valid y2 -> larry_truediv Py3 y1 (OpLarry y2) = Ok z ->
  valid z /\ inner_labels y1 y2 z /\ ldtype z = DFloat /\
  forall ls v1 v2, cell y1 ls = Some v1 -> cell y2 ls = Some v2 ->
    exists n1 n2, to_num v1 = Some n1 /\ to_num v2 = Some n2 /\ cell z ls = Some (VFloat (num_div n1 n2)).
Proof.
  intros H1 H2 H. apply arith_larry in H as (_ & Hv & HL & _ & _ & HD & Hc); [|done|done].
  assert (Hf : ldtype z = DFloat) by (rewrite HD; by rewrite decide_True by tauto).
  split_and!; try done. intros ls v1 v2 E1 E2. destruct (Hc ls v1 v2 E1 E2) as (v & Ev & n1 & n2 & Hn1 & Hn2 & Hd).
  exists n1, n2. split_and!; try done. rewrite decide_False in Hd by (by intros [? _]). rewrite Ev.
  pose proof (valid_cell_typed z ls v Hv Ev) as Ht. rewrite Hf in Ht. destruct v; try done. simpl in Hd. by injection Hd as ->.
Qed.
Lemma truediv_scalar y v z :
  valid y -> larry_truediv Py3 y (OpScalar v) = Ok z ->
  valid z /\ llabel z = llabel y /\ ldtype z = DFloat /\
  forall ls u, cell y ls = Some u -> exists n m, to_num u = Some n /\ to_num v = Some m /\ cell z ls = Some (VFloat (num_div n m)).
Proof.
  intros Hy H. destruct (arith_scalar _ _ _ _ Hy H) as (Hv & HL & Hc).
  assert (Hf : ldtype z = DFloat).
  { unfold larry_truediv, larry_arith, larry_binary in H. apply bind_ok in H as (a & _ & H). apply bind_ok in H as (r & H & [= <-]).
    unfold np_arith in H. apply bind_ok in H as (dt & Hdt & H). unfold elementwise in H. apply bind_ok in H as (sh & _ & H).
    apply bind_ok in H as (b & _ & [= <-]). simpl. apply arith_dtype_spec in Hdt as (_ & _ & ->). by rewrite decide_True by tauto. }
  split_and!; try done. intros ls u E. destruct (Hc ls u E) as (w & Ew & n & m & Hn & Hm & Hd).
  exists n, m. split_and!; try done. rewrite decide_False in Hd by (by intros [? _]). rewrite Ew.
  pose proof (valid_cell_typed z ls w Hv Ew) as Ht. rewrite Hf in Ht. destruct w; try done. simpl in Hd. by injection Hd as ->.
Qed.
Lemma rtruediv_scalar y v z :
  valid y -> larry_rtruediv Py3 y (OpScalar v) = Ok z ->
  valid z /\ llabel z = llabel y /\ ldtype z = DFloat /\
  forall ls u, cell y ls = Some u -> exists n m, to_num u = Some n /\ to_num v = Some m /\ cell z ls = Some (VFloat (num_div m n)).
Proof.
  intros Hy H. destruct (rarith_scalar ADiv y v z Hy H) as (Hv & HL & Hc); [by intros [? _]|].
  assert (Hf : ldtype z = DFloat).
  { unfold larry_rtruediv, larry_rdivide in H. apply bind_ok in H as (a & _ & H). apply bind_ok in H as (r & H & [= <-]).
    unfold np_arith in H. apply bind_ok in H as (dt & Hdt & H). unfold elementwise in H. apply bind_ok in H as (sh & _ & H).
    apply bind_ok in H as (b & _ & [= <-]). simpl. apply arith_dtype_spec in Hdt as (_ & _ & ->). by rewrite decide_True by tauto. }
  split_and!; try done. intros ls u E. destruct (Hc ls u E) as (w & Ew & m & n & Hm & Hn & Hd).
  exists n, m. split_and!; try done. rewrite decide_False in Hd by (by intros [? _]). rewrite Ew.
  pose proof (valid_cell_typed z ls w Hv Ew) as Ht. rewrite Hf in Ht. destruct w; try done. simpl in Hd. by injection Hd as ->.
Qed.
