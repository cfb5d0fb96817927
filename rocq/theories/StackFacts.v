(** Proofs about stack and panel. *)
From Verif Require Import Create FlabelFacts AlignMore LarryMove.

Lemma kw_get_Some {A} (kw : list (string * A)) name a :
  NoDup kw.*1 -> kw_get name kw = Some a <-> (name, a) ∈ kw.
Proof.
  induction kw as [|[k b] kw IH]; intros Hn; simpl.
  - split; [done|]. by intros ?%elem_of_nil.
  - apply NoDup_cons in Hn as [Hk Hn]. rewrite elem_of_cons. destruct (decide (k = name)) as [->|Hne].
    + split; [intros [= ->]; by left|]. intros [[= ->]|Hin]; [done|].
      exfalso. apply Hk. apply elem_of_list_fmap. by exists (name, a).
    + rewrite (IH Hn). naive_solver.
Qed.

Lemma labels2 (l1 l2 : list lab) i j a b : l1 !! i = Some a -> l2 !! j = Some b -> labels_at [l1; l2] [i; j] [a; b].
Proof. intros. repeat constructor; done. Qed.

Lemma labels2_inv (l1 l2 : list lab) idx ls :
  labels_at [l1; l2] idx ls -> exists i j a b, idx = [i; j] /\ ls = [a; b] /\ l1 !! i = Some a /\ l2 !! j = Some b.
Proof.
  intros H. inversion H as [|? ? ? ? ? ? ? H1]; subst. inversion H1 as [|? ? ? ? ? ? ? H2]; subst. inversion H2; subst. eauto 10.
Qed.

Lemma two_labels y : valid y -> lndim y = 2 -> exists l1 l2, llabel y = [l1; l2].
Proof.
  intros Hv H2. pose proof (valid_ndim y Hv) as H. rewrite H2 in H. destruct (llabel y) as [|l1 [|l2 [|]]]; try done. eauto.
Qed.

(** The value of a cell as a float, NaN if there is none. *)
Definition float_or_nan (o : option val) : val := match o with Some v => val_to_float v | None => VFloat NaN end.

Lemma store_float_ok v w : store DFloat v = Ok w -> w = val_to_float v.
Proof. destruct v; simpl; congruence. Qed.

Lemma float_cast dt v : val_to_float (cast_to dt v) = val_to_float v.
Proof. destruct dt, v; simpl; try done; try by destruct b. Qed.

Lemma store_mark dt w : store DFloat (missing_mark dt) = Ok w -> w = VFloat NaN.
Proof. destruct dt; simpl; try done; by intros [= <-]. Qed.
Lemma store_mark2 dt dt' w : store DFloat (cast_to dt (missing_mark dt')) = Ok w -> w = VFloat NaN.
Proof. destruct dt, dt'; simpl; try done; by intros [= <-]. Qed.
Lemma mark_float dt w v : store DFloat (cast_to dt v) = Ok w -> w = val_to_float v.
Proof. intros ->%store_float_ok. apply float_cast. Qed.

Lemma slab_spec y row col y1 y2 vs :
  valid y -> lndim y = 2 -> morph y row 0 = Ok y1 -> morph y1 col 1 = Ok y2 -> mapR (store DFloat) (data (larr y2)) = Ok vs ->
  length vs = length row * length col /\ Forall (fun v => has_dtype DFloat v = true) vs /\
  forall i j r c, row !! i = Some r -> col !! j = Some c -> vs !! (i * length col + j) = Some (float_or_nan (cell y [r; c])).
Proof.
  intros Hv H2 Hm1 Hm2 Hvs. destruct (two_labels y Hv H2) as (l1 & l2 & HL).
  apply morph_spec in Hm1 as (ax & old & Hax & _ & Hn1 & Hl1 & Hr1 & _); [|done].
  assert (ax = 0) as -> by (apply py_axis_ok in Hax; rewrite HL in Hax; simpl in Hax; lia).
  rewrite HL in Hl1. simpl in Hl1. destruct Hr1 as (Hv1 & _ & _ & Hc1).
  apply morph_spec in Hm2 as (ax & old' & Hax' & _ & Hn2 & Hl2 & Hr2 & _); [|done].
  assert (ax = 1) as -> by (apply py_axis_ok in Hax'; rewrite Hl1 in Hax'; simpl in Hax'; lia).
  rewrite Hl1 in Hl2. simpl in Hl2. destruct Hr2 as (Hv2 & _ & _ & Hc2).
  assert (Hsh : lshape y2 = [length row; length col]) by (rewrite <-(valid_shape y2 Hv2), Hl2; done).
  apply mapR_ok in Hvs.
  split_and!.
  - rewrite <-(Forall2_length _ _ _ Hvs). rewrite (valid_wf y2 Hv2). unfold asize. change (shape (larr y2)) with (lshape y2). rewrite Hsh. simpl. lia.
  - apply Forall_lookup. intros k v Hk. destruct (Forall2_lookup_r _ _ _ _ _ Hvs Hk) as (u & _ & Hu). by apply store_typed in Hu.
  - intros i j r c Hi Hj.
    pose proof (labels2 _ _ _ _ _ _ Hi Hj) as Hat.
    rewrite <-Hl2 in Hat. destruct (valid_cell_at y2 _ _ Hv2 Hat) as (u & Hu & Hcu).
    pose proof (get_in_range _ _ _ Hu) as Hrng. rewrite get_ravel in Hu by done. change (shape (larr y2)) with (lshape y2) in Hu. rewrite Hsh in Hu. simpl in Hu.
    replace (i * (length col * 1) + (j * 1 + 0)) with (i * length col + j) in Hu by lia.
    destruct (Forall2_lookup_l _ _ _ _ _ Hvs Hu) as (w & Hw & Hst). rewrite Hw. f_equal.
    rewrite Hc2 in Hcu by (rewrite in_grid_labels_at; eauto). injection Hcu as Hcu. subst u.
    destruct (cell y1 [r; c]) as [v1|] eqn:E1.
    + assert (in_grid (llabel y1) [r; c]) as Hg by (apply valid_cell_grid; [done|by rewrite E1]).
      rewrite Hc1 in E1 by done. injection E1 as E1. subst v1.
      destruct (cell y [r; c]); simpl.
      * apply mark_float in Hst. subst w. apply float_cast.
      * by apply store_mark2 in Hst.
    + apply store_mark in Hst. subst w. apply (cell_None_grid y1) in E1; [|done].
      destruct (cell y [r; c]) as [v|] eqn:E; [|done]. exfalso. apply E1. rewrite Hl1.
      assert (in_grid (llabel y) [r; c]) as Hg by (apply valid_cell_grid; [done|by rewrite E]).
      rewrite HL in Hg. inversion Hg as [|? ? ? ? ? Hg' Hq1 Hq2]; subst. constructor; [by eapply elem_of_list_lookup_2|done].
Qed.

(** [label_at] of a 2d larry. *)
Lemma axis_label_01 y (ax : nat) l :
  valid y -> lndim y = 2 -> ax < 2 -> axis_label_is y (Z.of_nat ax) l <-> llabel y !! ax = Some l.
Proof.
  intros Hv H2 Hax. unfold axis_label_is, axis_is. rewrite (valid_ndim y Hv), H2. split.
  - intros (k & [Hk Hz] & Hl). assert (k = ax) as -> by lia. done.
  - intros Hl. exists ax. split; [lia|done].
Qed.

Lemma logic_combined mode kwargs (ax : nat) l logic :
  Forall valid kwargs.*2 -> Forall (fun y => lndim y = 2) kwargs.*2 -> ax < 2 ->
  (match mode with SUnion => logic = union_labels | SInter => logic = intersection_labels | SBad => False end) ->
  logic (Z.of_nat ax) kwargs.*2 = Ok l -> combined mode kwargs ax l /\ (mode = SInter -> kwargs <> []).
Proof.
  intros Hv H2 Hax Hlogic Hl. rewrite Forall_forall in Hv, H2.
  assert (Hiff : forall y, y ∈ kwargs.*2 <-> exists name, (name, y) ∈ kwargs).
  { intros y. rewrite elem_of_list_fmap. split; [intros ([n y'] & -> & ?); eauto|]. intros [n ?]. by exists (n, y). }
  unfold combined. destruct mode; subst; [| |done].
  - apply union_spec in Hl as (Hs & _ & Hin). split; [|done]. split; [done|]. intros x. rewrite Hin. split.
    + intros (y & la & Hy & Hla & Hx). destruct (proj1 (Hiff y) Hy) as [n Hn]. exists n, y, la.
      rewrite axis_label_01 in Hla by eauto. done.
    + intros (n & y & la & Hn & Hla & Hx). assert (Hy : y ∈ kwargs.*2) by (apply Hiff; eauto).
      exists y, la. rewrite axis_label_01 by eauto. done.
  - apply intersection_spec in Hl as (Hne & Hs & _ & Hin). split; [|intros _ ->; done]. split; [done|]. intros x. rewrite Hin. split.
    + intros Hall n y Hn. assert (Hy : y ∈ kwargs.*2) by (apply Hiff; eauto). destruct (Hall y Hy) as (la & Hla & Hx).
      exists la. rewrite axis_label_01 in Hla by eauto. done.
    + intros Hall y Hy. destruct (proj1 (Hiff y) Hy) as [n Hn]. destruct (Hall n y Hn) as (la & Hla & Hx).
      exists la. rewrite axis_label_01 by eauto. done.
Qed.

Lemma concat_lookup {A} (ll : list (list A)) s k c :
  (forall l, l ∈ ll -> length l = s) ->
  concat ll !! k = Some c <-> exists i j l, k = i * s + j /\ ll !! i = Some l /\ l !! j = Some c.
Proof.
  intros H. replace (concat ll) with (ll ≫= id); [by apply (bind_lookup_block id)|].
  clear H. induction ll as [|l ll IH]; [done|]. csimpl. by f_equal.
Qed.
Lemma concat_const_length {A} (ll : list (list A)) s :
  (forall l, l ∈ ll -> length l = s) -> length (concat ll) = length ll * s.
Proof.
  induction ll as [|l ll IH]; intros H; simpl; [done|]. rewrite app_length, (H l), IH; [done| |left].
  intros. apply H. by right.
Qed.

Theorem stack_spec mode kwargs z :
  Forall valid kwargs.*2 -> NoDup kwargs.*1 -> stack mode kwargs = Ok z ->
  valid z /\ ldtype z = DFloat /\ exists keys row col, llabel z = [keys; row; col] /\
  StronglySorted lab_lt keys /\ (forall x, x ∈ keys <-> exists name y, (name, y) ∈ kwargs /\ x = LStr name) /\
  combined mode kwargs 0 row /\ combined mode kwargs 1 col /\
  forall name y r c, (name, y) ∈ kwargs -> r ∈ row -> c ∈ col ->
    cell z [LStr name; r; c] = Some (match cell y [r; c] with Some v => val_to_float v | None => VFloat NaN end).
Proof.
  intros Hv Hnd. unfold stack. destruct (forallb _ kwargs) eqn:E2; [|done].
  assert (H2 : Forall (fun y => lndim y = 2) kwargs.*2).
  { apply Forall_fmap. apply Forall_forall. intros p Hp. rewrite forallb_forall in E2. apply elem_of_list_In in Hp.
    specialize (E2 p Hp). apply bool_decide_eq_true in E2. done. }
  intros H. apply bind_ok in H as (logic & Hlogic & H).
  apply bind_ok in H as (row & Hrow & H). apply bind_ok in H as (col & Hcol & H).
  apply bind_ok in H as (keys & Hkeys & H). apply bind_ok in H as (slabs & Hslabs & H).
  assert (Hm : match mode with SUnion => logic = union_labels | SInter => logic = intersection_labels | SBad => False end).
  { destruct mode; [by injection Hlogic|by injection Hlogic|done]. }
  apply (logic_combined mode kwargs 0) in Hrow as [Hrow _]; [|done|done|lia|done].
  apply (logic_combined mode kwargs 1) in Hcol as [Hcol _]; [|done|done|lia|done].
  assert (Hks : StronglySorted lab_lt keys /\ (forall x, x ∈ keys <-> exists name y, (name, y) ∈ kwargs /\ x = LStr name)).
  { apply py_sorted_ok in Hkeys as (_ & Hs & Hp). split.
    - apply sorted_lt_nodup; [done|]. rewrite Hp. replace (map _ kwargs) with (LStr <$> kwargs.*1) by (clear; induction kwargs; csimpl; by f_equal).
      apply (NoDup_fmap_2_strong _ _); [congruence|done].
    - intros x. rewrite Hp. change (x ∈ ((fun p : string * larry => LStr p.1) <$> kwargs) <-> exists name y, (name, y) ∈ kwargs /\ x = LStr name).
      rewrite elem_of_list_fmap. split; [intros ([n y] & -> & ?); eauto|]. intros (n & y & Hin & ->). by exists (n, y). }
  assert (Hklen : length keys = length kwargs) by (apply py_sorted_length in Hkeys; by rewrite Hkeys, map_length).
  apply mapR_ok in Hslabs.
  assert (Hslab : forall i key vs, keys !! i = Some key -> slabs !! i = Some vs ->
    length vs = length row * length col /\ Forall (fun v => has_dtype DFloat v = true) vs /\
    exists name y, key = LStr name /\ (name, y) ∈ kwargs /\
    forall i j r c, row !! i = Some r -> col !! j = Some c -> vs !! (i * length col + j) = Some (float_or_nan (cell y [r; c]))).
  { intros i key vs Hi Hvs. destruct (Forall2_lookup_lr _ _ _ _ _ _ Hslabs Hi Hvs).
    pose proof (Forall2_lookup_lr _ _ _ _ _ _ Hslabs Hi Hvs) as Hs. simpl in Hs.
    apply bind_ok in Hs as (name & Hname & Hs). apply bind_ok in Hs as (y & Hy & Hs).
    apply bind_ok in Hs as (y1 & Hy1 & Hs). apply bind_ok in Hs as (y2 & Hy2 & Hs).
    apply of_opt_ok in Hname, Hy. apply kw_get_Some in Hy; [|done].
    assert (Hy' : y ∈ kwargs.*2) by (apply elem_of_list_fmap; by exists (name, y)).
    rewrite Forall_forall in Hv, H2. destruct (slab_spec y row col y1 y2 vs) as (Hlen & Hty & Hc); auto.
    split_and!; [done|done|]. exists name, y. destruct key; try done. injection Hname as ->. done. }
  assert (Hslen : length slabs = length keys) by (symmetry; by eapply Forall2_length).
  assert (Hlens : forall l, l ∈ slabs -> length l = length row * length col).
  { intros l Hl. apply elem_of_list_lookup in Hl as [i Hi]. destruct (lookup_lt_is_Some_2 keys i) as [key Hk]; [apply lookup_lt_Some in Hi; lia|].
    by destruct (Hslab i key l Hk Hi). }
  apply make_some_valid in H.
  2: { split.
    - unfold arr_wf, asize. simpl. rewrite (concat_const_length _ _ Hlens). rewrite Hslen, Hklen. lia.
    - simpl. apply Forall_forall. intros v Hv'. apply elem_of_list_In, in_concat in Hv' as (l & Hl & Hv').
      apply elem_of_list_In in Hl, Hv'. apply elem_of_list_lookup in Hl as [i Hi].
      destruct (lookup_lt_is_Some_2 keys i) as [key Hk]; [apply lookup_lt_Some in Hi; lia|].
      destruct (Hslab i key l Hk Hi) as (_ & Hf & _). rewrite Forall_forall in Hf. by apply Hf. }
  destruct H as [-> Hz]. split_and!; [done|done|]. exists keys, row, col. destruct Hks as [Hs Hin].
  split_and!; try done; try apply Hrow; try apply Hcol.
  intros name y r c Hny Hr Hc.
  assert (Hkey : LStr name ∈ keys) by (apply Hin; eauto).
  apply elem_of_list_lookup in Hkey as [i Hi], Hr as [j Hj], Hc as [k Hk].
  assert (Hat : labels_at [keys; row; col] [i; j; k] [LStr name; r; c]) by (repeat constructor; done).
  destruct (valid_cell_at _ _ _ Hz Hat) as (v & Hv1 & ->). f_equal.
  pose proof (get_in_range _ _ _ Hv1) as Hrng. rewrite get_ravel in Hv1 by done. simpl in Hv1.
  destruct (lookup_lt_is_Some_2 slabs i) as [vs Hvs]; [apply lookup_lt_Some in Hi; lia|].
  destruct (Hslab i _ vs Hi Hvs) as (Hlen & _ & name' & y' & Heq & Hny' & Hcell). injection Heq as <-.
  assert (y' = y) as ->.
  { apply (kw_get_Some _ _ _ Hnd) in Hny, Hny'. congruence. }
  specialize (Hcell j k r c Hj Hk).
  assert (He : concat slabs !! (i * (length row * length col) + (j * length col + k)) = Some (float_or_nan (cell y [r; c]))).
  { apply (concat_lookup _ _ _ _ Hlens). exists i, (j * length col + k), vs. done. }
  replace (i * (length row * (length col * 1)) + (j * (length col * 1) + (k * 1 + 0))) with (i * (length row * length col) + (j * length col + k)) in Hv1 by lia.
  rewrite He in Hv1. injection Hv1 as <-. done.
Qed.

Theorem stack_ok mode kwargs :
  mode <> SBad -> (mode = SInter -> kwargs <> []) -> NoDup kwargs.*1 ->
  Forall (fun y => valid y /\ lndim y = 2 /\ (ldtype y = DFloat \/ ldtype y = DInt \/ ldtype y = DBool)) kwargs.*2 ->
  names_sortable kwargs 0 -> names_sortable kwargs 1 -> exists z, stack mode kwargs = Ok z.
Proof.
  intros Hmode Hne Hnd Hall Hs0 Hs1. unfold stack.
  assert (Hin : forall name y, (name, y) ∈ kwargs -> valid y /\ lndim y = 2 /\ (ldtype y = DFloat \/ ldtype y = DInt \/ ldtype y = DBool)).
  { intros name y Hy. rewrite Forall_forall in Hall. apply Hall. apply elem_of_list_fmap. by exists (name, y). }
  assert (Hin2 : forall y, y ∈ kwargs.*2 -> exists name, (name, y) ∈ kwargs).
  { intros y. rewrite elem_of_list_fmap. intros ([n y'] & -> & ?); eauto. }
  replace (forallb _ kwargs) with true.
  2: { symmetry. apply forallb_forall. intros [name y] Hy%elem_of_list_In. apply bool_decide_eq_true. by eapply Hin. }
  assert (Hlab : forall ax, ax < 2 -> Forall (fun y => exists l, axis_label_is y (Z.of_nat ax) l) kwargs.*2).
  { intros ax Hax. apply Forall_forall. intros y Hy. destruct (Hin2 y Hy) as [name Hn]. destruct (Hin name y Hn) as (Hv & H2 & _).
    destruct (two_labels y Hv H2) as (l1 & l2 & HL). destruct (lookup_lt_is_Some_2 (llabel y) ax) as [l Hl]; [by rewrite HL|].
    exists l. by rewrite axis_label_01. }
  assert (Hsort : forall ax, ax < 2 -> names_sortable kwargs ax -> all_sortable (Z.of_nat ax) kwargs.*2).
  { intros ax Hax Hs y1 y2 l1 l2 a b Hy1 Hy2 Hl1 Hl2 Ha Hb. destruct (Hin2 y1 Hy1) as [n1 Hn1], (Hin2 y2 Hy2) as [n2 Hn2].
    destruct (Hin n1 y1 Hn1) as (Hv1 & Hd1 & _). destruct (Hin n2 y2 Hn2) as (Hv2 & Hd2 & _).
    rewrite axis_label_01 in Hl1, Hl2 by done. exact (Hs n1 y1 n2 y2 l1 l2 a b Hn1 Hn2 Hl1 Hl2 Ha Hb). }
  assert (Hne' : mode = SInter -> kwargs.*2 <> []) by (intros Hm%Hne Hnil%fmap_nil_inv; done).
  assert (Hlogic : exists logic, match mode with SUnion => Ok union_labels | SInter => Ok intersection_labels | SBad => Err ValueError end = Ok logic /\
     match mode with SUnion => logic = union_labels | SInter => logic = intersection_labels | SBad => False end /\
     (exists row, logic 0%Z kwargs.*2 = Ok row) /\ exists col, logic 1%Z kwargs.*2 = Ok col).
  { destruct mode; [exists union_labels|exists intersection_labels|done]; split_and!; try done.
    - apply union_ok; [by apply (Hlab 0); lia|by apply (Hsort 0); [lia|]].
    - apply union_ok; [by apply (Hlab 1); lia|by apply (Hsort 1); [lia|]].
    - apply intersection_ok; [by apply Hne'|by apply (Hlab 0); lia|by apply (Hsort 0); [lia|]].
    - apply intersection_ok; [by apply Hne'|by apply (Hlab 1); lia|by apply (Hsort 1); [lia|]]. }
  destruct Hlogic as (logic & -> & Hm & [row Hrow] & [col Hcol]). cbn [mbind res_bind]. rewrite Hrow. cbn [mbind res_bind]. rewrite Hcol. cbn [mbind res_bind].
  assert (Hv : Forall valid kwargs.*2) by (eapply Forall_impl; [exact Hall|]; by intros ? []).
  assert (H2 : Forall (fun y => lndim y = 2) kwargs.*2) by (eapply Forall_impl; [exact Hall|]; by intros ? (? & ? & ?)).
  assert (Hrs : NoDup row).
  { apply (logic_combined mode kwargs 0) in Hrow as [[Hrow _] _]; [|done|done|lia|done]. by apply lt_sorted_nodup. }
  assert (Hcs : NoDup col).
  { apply (logic_combined mode kwargs 1) in Hcol as [[Hcol _] _]; [|done|done|lia|done]. by apply lt_sorted_nodup. }
  destruct (py_sorted_total (map (fun p : string * larry => LStr p.1) kwargs)) as [keys Hkeys].
  { apply sortable_spec. intros a b (p & -> & _)%elem_of_list_fmap (q & -> & _)%elem_of_list_fmap. right. done. }
  rewrite Hkeys. cbn [mbind res_bind].
  pose proof (py_sorted_length _ _ Hkeys) as Hkl. rewrite map_length in Hkl.
  assert (Hkn : NoDup keys).
  { apply py_sorted_nodup in Hkeys; [done|]. replace (map _ kwargs) with (LStr <$> kwargs.*1) by (clear; induction kwargs; csimpl; by f_equal).
    apply (NoDup_fmap_2_strong _ _); [congruence|done]. }
  destruct (mapR_total (fun key => name ← of_opt KeyError (lab_str key); y ← of_opt KeyError (kw_get name kwargs);
              y ← morph y row 0; y ← morph y col 1; mapR (store DFloat) (data (larr y))) keys) as [slabs Hslabs].
  { intros key Hk. apply py_sorted_ok in Hkeys as (_ & _ & Hp). rewrite Hp in Hk. apply elem_of_list_fmap in Hk as ([name y] & -> & Hy).
    simpl. rewrite (proj2 (kw_get_Some kwargs name y Hnd) Hy). simpl. destruct (Hin name y Hy) as (Hvy & H2y & Hdt).
    destruct (two_labels y Hvy H2y) as (l1 & l2 & HL).
    destruct (morph_ok y row 0 0) as [y1 Hy1]; [done|apply (py_axis_nat y 0); rewrite HL; simpl; lia|done|]. rewrite Hy1. simpl.
    apply morph_spec in Hy1 as (ax & old & _ & _ & _ & Hl1 & (Hv1 & Hd1 & _) & _); [|done].
    destruct (morph_ok y1 col 1 1) as [y2 Hy2]; [done|apply (py_axis_nat y1 1); rewrite Hl1, insert_length, HL; simpl; lia|done|]. rewrite Hy2. simpl.
    apply morph_spec in Hy2 as (ax' & old' & _ & _ & _ & Hl2 & (Hv2 & Hd2 & _) & _); [|done].
    apply mapR_total. intros v Hv2'. pose proof (valid_typed y2 Hv2) as Hty. rewrite Forall_forall in Hty. specialize (Hty v Hv2').
    assert (Hd : ldtype y2 = DFloat \/ ldtype y2 = DInt \/ ldtype y2 = DBool).
    { destruct Hdt as [E|[E|E]], Hd1 as [E1|E1], Hd2 as [E2|E2]; rewrite E2, E1, E; simpl; auto. }
    destruct Hd as [E|[E|E]]; rewrite E in Hty; destruct v; try done; simpl; eauto. }
  rewrite Hslabs. cbn [mbind res_bind].
  eexists. apply make_some_ok. split_and!; [done|done|simpl; by rewrite Hkl|by repeat constructor].
Qed.

Lemma stack_not_2d mode kwargs name y : (name, y) ∈ kwargs -> lndim y <> 2 -> stack mode kwargs = Err ValueError.
Proof.
  intros Hin Hd. unfold stack. destruct (forallb _ kwargs) eqn:E; [|done].
  rewrite forallb_forall in E. apply elem_of_list_In in Hin. specialize (E _ Hin). apply bool_decide_eq_true in E. done.
Qed.
Lemma stack_bad_mode kwargs : stack SBad kwargs = Err ValueError.
Proof. unfold stack. by destruct (forallb _ kwargs). Qed.

(** * panel *)

Lemma in_range_reverse sh idx : in_range sh idx -> in_range (reverse sh) (reverse idx).
Proof. apply Forall2_reverse. Qed.
Lemma transpose_invol {A} (a : arr A) : arr_wf a -> exists t, transpose a = Some t /\ transpose t = Some a.
Proof.
  intros Hwf. unfold transpose.
  destruct (gather a (reverse (shape a)) (fun idx => Some (reverse idx))) as [t|] eqn:Ht.
  - exists t. split; [done|]. apply gather_Some in Ht as (Hs & Ht & Hg). apply gather_Some.
    rewrite Hs, reverse_involutive. split_and!; [done|done|]. intros idx Hr. simpl.
    rewrite Hg by by apply in_range_reverse. simpl. by rewrite reverse_involutive.
  - exfalso. assert (Hsome : is_Some (gather a (reverse (shape a)) (fun idx => Some (reverse idx)))); [|rewrite Ht in Hsome; by destruct Hsome].
    unfold gather, build. apply fmap_is_Some, mapM_is_Some. apply Forall_forall. intros idx Hidx%elem_of_indices. simpl.
    apply get_is_Some; [done|]. rewrite <-(reverse_involutive (shape a)). by apply in_range_reverse.
Qed.

Theorem panel_spec y :
  valid y -> lndim y = 3 -> lshape y !! 0 <> Some 0 ->
  exists z l0 l1 l2 row, panel y = Ok z /\ valid z /\ ldtype z = ldtype y /\ llabel y = [l0; l1; l2] /\ llabel z = [row; l0] /\
  length row = length l1 * length l2 /\
  (forall i j a b, l1 !! i = Some a -> l2 !! j = Some b -> row !! (i * length l2 + j) = Some (LTup [a; b])) /\
  forall a b c, a ∈ l0 -> b ∈ l1 -> c ∈ l2 -> cell z [LTup [b; c]; a] = cell y [a; b; c].
Proof.
  intros Hv H3 Hn0. pose proof (valid_ndim y Hv) as Hnd. rewrite H3 in Hnd.
  pose proof (valid_shape y Hv) as Hsh. pose proof (valid_nodup y Hv) as Hnod.
  destruct (llabel y) as [|l0 [|l1 [|l2 [|]]]] eqn:HL; try done. simpl in Hsh.
  unfold panel. rewrite HL, <-Hsh. rewrite <-Hsh in Hn0. simpl in Hn0.
  unfold flattenlabel. rewrite decide_True by done. cbn [mbind res_bind].
  pose proof (flattenlabel_C_lookup [l1; l2]) as Hrow. set (row := flattenlabel_order [l1; l2] true) in *.
  assert (Hrow' : forall i j a b, l1 !! i = Some a -> l2 !! j = Some b -> (LTup <$> row) !! (i * length l2 + j) = Some (LTup [a; b])).
  { intros i j a b Ha Hb. rewrite list_lookup_fmap. rewrite (proj2 (Hrow (i * length l2 + j) [a; b])); [done|].
    exists [i; j]. split; [by apply labels2|]. simpl. lia. }
  assert (Hfl : flattenlabel [l1; l2] "C" = Ok row) by done.
  destruct (flattenlabel_grid _ _ _ Hfl) as (Hlen & _ & Hnod'). simpl in Hlen.
  apply Forall_cons in Hnod as [Hd0 Hnod]. 
  destruct (transpose_invol (larr y)) as (t & Ht & Htt); [by apply valid_wf|]. rewrite Ht. cbn [of_opt mbind res_bind].
  rewrite decide_False by congruence.
  unfold reshape_F. rewrite Htt. cbn [mbind option_bind]. rewrite decide_True.
  2: { rewrite (valid_wf y Hv). unfold asize. change (shape (larr y)) with (lshape y). rewrite <-Hsh. simpl. lia. }
  destruct (reshape_grid y [l0; LTup <$> row] (fun ls => match ls with [a; LTup t] => a :: t | _ => ls end)) as [Hv' Hc']; try done.
  - constructor; [done|]. constructor; [|constructor]. apply (NoDup_fmap_2_strong _ _); [congruence|]. by apply Hnod'.
  - rewrite <-Hsh. simpl. rewrite fmap_length, Hlen. lia.
  - intros idx' ls' (i & k & a & tt & -> & -> & Ha & Hk)%labels2_inv.
    rewrite list_lookup_fmap in Hk. destruct (row !! k) as [t'|] eqn:Ek; [|done]. injection Hk as <-.
    apply Hrow in Ek as (idx & Hat & ->). apply labels2_inv in Hat as (j & q & b & c & -> & -> & Hb & Hc).
    exists [i; j; q]. rewrite HL. split; [by repeat constructor|]. rewrite <-Hsh. simpl. rewrite fmap_length, Hlen. lia.
  - set (y' := Larry _ _) in Hv', Hc'.
    destruct (larry_T_spec y' Hv') as (z & Hz & Hvz & Hdz & Hlz & Hcz).
    unfold larry_T in Hz. apply bind_ok in Hz as (x & Hx & Hz). apply of_opt_ok in Hx. injection Hz as Hz.
    change (transpose (Arr [length l0; length (LTup <$> row)] (data (larr y))) = Some x) in Hx. rewrite fmap_length in Hx. rewrite Hlen in Hx.
    change (reverse [length l1 * length l2; length l0]) with ([length l0; length l1 * length l2]).
    replace (length l1 * (length l2 * 1)) with (length l1 * length l2) in Hx by lia.
    rewrite Hx. cbn [of_opt mbind res_bind].
    exists z, l0, l1, l2, (LTup <$> row). split_and!; try done.
    + by rewrite <-Hz.
    + rewrite fmap_length, Hlen. lia.
    + intros a b c Ha Hb Hc. rewrite Hcz. change (reverse [LTup [b; c]; a]) with [a; LTup [b; c]]. rewrite Hc'; [done|].
      constructor; [done|]. constructor; [|constructor]. apply elem_of_list_lookup in Hb as [i Hi], Hc as [j Hj].
      eapply elem_of_list_lookup_2. by apply Hrow'.
Qed.

Lemma panel_not_3d y : valid y -> lndim y <> 3 -> panel y = Err ValueError.
Proof.
  intros Hv H3. unfold panel. rewrite <-(valid_ndim y Hv) in H3. destruct (llabel y) as [|l0 [|l1 [|l2 [|]]]]; done.
Qed.
Lemma panel_empty y : valid y -> lndim y = 3 -> lshape y !! 0 = Some 0 -> panel y = Err ValueError.
Proof.
  intros Hv Hn H0. unfold panel. destruct (llabel y) as [|l0 [|l1 [|l2 [|]]]]; try done.
  destruct (lshape y) as [|n [|m [|k [|]]]]; try done. injection H0 as ->.
  unfold flattenlabel. rewrite decide_True by done. cbn [mbind res_bind].
  destruct (transpose (larr y)); [|done]. cbn [of_opt mbind res_bind]. done.
Qed.
Lemma panel_empty_refuted : exists y, valid y /\ lndim y = 3 /\ panel y = Err ValueError.
Proof.
  exists (Larry (Nda DFloat (Arr [0; 1; 2] [])) [[]; [LStr "a"]; [LStr "x"; LStr "y"]]). split_and!; [solve_valid|done..].
Qed.
