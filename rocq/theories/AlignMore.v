(** Facts about align_axis, isaligned, union, intersection, ismissing,
    nan_replace and nans. *)
From Verif Require Export AlignRaw.


Lemma label_at_is y axis l : label_at y axis = Ok l <-> axis_label_is y axis l.
Proof.
  unfold label_at, axis_label_is. rewrite bind_ok. split.
  - intros (ax & Ha & Hl). exists ax. split; [by apply py_axis_is|by apply axis_label_ok].
  - intros (ax & Ha & Hl). exists ax. split; [by apply py_axis_is|by apply axis_label_ok].
Qed.
Lemma axis_label_is_unique y axis l l' : axis_label_is y axis l -> axis_label_is y axis l' -> l = l'.
Proof. rewrite <-!label_at_is. intros H1 H2. rewrite H1 in H2. by injection H2. Qed.

(** ** union and intersection *)

Lemma union_fold axis args rc0 rc :
  foldM (fun rc arg => l ← label_at arg axis; Ok (remove_dups (rc ++ l))) rc0 args = Ok rc -> NoDup rc0 ->
  NoDup rc /\ Forall (fun y => exists l, axis_label_is y axis l) args /\
  forall x, x ∈ rc <-> x ∈ rc0 \/ exists y l, y ∈ args /\ axis_label_is y axis l /\ x ∈ l.
Proof.
  revert rc0. induction args as [|y args IH]; intros rc0; simpl.
  - intros [= <-] Hnd. split_and!; [done..|]. intros x. split; [by left|]. intros [?|(y & l & Hy & _)]; [done|]. by apply elem_of_nil in Hy.
  - destruct (label_at y axis) as [l|] eqn:El; simpl; [|done]. apply label_at_is in El. intros HF Hnd.
    apply IH in HF as (Hnd' & Hall & Hin); [|apply NoDup_remove_dups]. split; [done|]. split; [constructor; eauto|].
    intros x. rewrite Hin, elem_of_remove_dups, elem_of_app. split.
    + intros [[?|?]|(y' & l' & ? & ? & ?)]; [by left|right; exists y, l; split_and!; [by left|done..]|].
      right. exists y', l'. split_and!; [by right|done..].
    + intros [?|(y' & l' & Hy & Hl & Hx)]; [by left; left|]. apply elem_of_cons in Hy as [->|Hy].
      * left. right. by rewrite (axis_label_is_unique _ _ _ _ El Hl).
      * right. eauto.
Qed.
Lemma union_spec axis args u :
  union_labels axis args = Ok u ->
  StronglySorted lab_lt u /\ Forall (fun y => exists l, axis_label_is y axis l) args /\
  forall x, x ∈ u <-> exists y l, y ∈ args /\ axis_label_is y axis l /\ x ∈ l.
Proof.
  unfold union_labels. rewrite bind_ok. intros (rc & HF & (_ & Hs & Hp)%py_sorted_ok).
  apply union_fold in HF as (Hnd & Hall & Hin); [|constructor]. split_and!; [|done|].
  - apply sorted_lt_nodup; [done|]. by rewrite Hp.
  - intros x. rewrite Hp, Hin, elem_of_nil. tauto.
Qed.

Lemma inter_fold axis args rc0 rc :
  foldM (fun rc arg => l ← label_at arg axis; Ok (filter (fun x => x ∈ l) rc)) rc0 args = Ok rc -> NoDup rc0 ->
  NoDup rc /\ Forall (fun y => exists l, axis_label_is y axis l) args /\
  forall x, x ∈ rc <-> x ∈ rc0 /\ forall y, y ∈ args -> exists l, axis_label_is y axis l /\ x ∈ l.
Proof.
  revert rc0. induction args as [|y args IH]; intros rc0; simpl.
  - intros [= <-] Hnd. split_and!; [done..|]. intros x. split; [|tauto]. intros ?. split; [done|]. intros y Hy. by apply elem_of_nil in Hy.
  - destruct (label_at y axis) as [l|] eqn:El; simpl; [|done]. apply label_at_is in El. intros HF Hnd.
    apply IH in HF as (Hnd' & Hall & Hin); [|by apply NoDup_filter]. split; [done|]. split; [constructor; eauto|].
    intros x. rewrite Hin, elem_of_list_filter. split.
    + intros [[? ?] Hall']. split; [done|]. intros y' [->|Hy]%elem_of_cons; [eauto|by apply Hall'].
    + intros [Hx Hall']. split; [split; [|done]|].
      * destruct (Hall' y) as (l' & Hl' & Hx'); [by left|]. by rewrite (axis_label_is_unique _ _ _ _ El Hl').
      * intros y' Hy. apply Hall'. by right.
Qed.
Lemma intersection_spec axis args u :
  intersection_labels axis args = Ok u ->
  args <> [] /\ StronglySorted lab_lt u /\ Forall (fun y => exists l, axis_label_is y axis l) args /\
  forall x, x ∈ u <-> forall y, y ∈ args -> exists l, axis_label_is y axis l /\ x ∈ l.
Proof.
  unfold intersection_labels. destruct args as [|a0 rest]; [done|]. rewrite bind_ok. intros (l0 & Hl0 & H).
  apply label_at_is in Hl0. apply bind_ok in H as (rc & HF & (_ & Hs & Hp)%py_sorted_ok).
  apply inter_fold in HF as (Hnd & Hall & Hin); [|apply NoDup_remove_dups]. split_and!; [done| |constructor; eauto|].
  - apply sorted_lt_nodup; [done|]. by rewrite Hp.
  - intros x. rewrite Hp, Hin, elem_of_remove_dups. split.
    + intros [Hx Hr] y [->|Hy]%elem_of_cons; [eauto|by apply Hr].
    + intros Hr. split; [|intros; apply Hr; by right]. destruct (Hr a0) as (l & Hl & Hx); [by left|].
      by rewrite (axis_label_is_unique _ _ _ _ Hl0 Hl).
Qed.


Lemma union_fold_ex axis args rc0 :
  Forall (fun y => exists l, axis_label_is y axis l) args ->
  exists rc, foldM (fun rc arg => l ← label_at arg axis; Ok (remove_dups (rc ++ l))) rc0 args = Ok rc.
Proof.
  intros Hall. revert rc0. induction Hall as [|y args [l Hl] _ IH]; intros rc0; simpl; [by eauto|].
  apply label_at_is in Hl. rewrite Hl. simpl. apply IH.
Qed.
Lemma inter_fold_ex axis args (rc0 : list lab) :
  Forall (fun y => exists l, axis_label_is y axis l) args ->
  exists rc, foldM (fun rc arg => l ← label_at arg axis; Ok (filter (fun x => x ∈ l) rc)) rc0 args = Ok rc.
Proof.
  intros Hall. revert rc0. induction Hall as [|y args [l Hl] _ IH]; intros rc0; simpl; [by eauto|].
  apply label_at_is in Hl. rewrite Hl. simpl. apply IH.
Qed.
Lemma union_ok axis args :
  Forall (fun y => exists l, axis_label_is y axis l) args -> all_sortable axis args ->
  exists u, union_labels axis args = Ok u.
Proof.
  intros Hall Hs. unfold union_labels. destruct (union_fold_ex axis args [] Hall) as [rc HF]. rewrite HF. simpl.
  apply union_fold in HF as (_ & _ & Hin); [|constructor]. apply py_sorted_total, sortable_spec.
  intros a b Ha Hb. apply Hin in Ha as [Ha|(y1 & l1 & ? & ? & ?)]; [by apply elem_of_nil in Ha|].
  apply Hin in Hb as [Hb|(y2 & l2 & ? & ? & ?)]; [by apply elem_of_nil in Hb|]. by eapply (Hs y1 y2).
Qed.
Lemma intersection_ok axis args :
  args <> [] -> Forall (fun y => exists l, axis_label_is y axis l) args -> all_sortable axis args ->
  exists u, intersection_labels axis args = Ok u.
Proof.
  intros Hne Hall Hs. unfold intersection_labels. destruct args as [|a0 rest]; [done|].
  inversion Hall as [|? ? [l0 Hl0] Hrest]; subst. pose proof (proj2 (label_at_is _ _ _) Hl0) as E. rewrite E. simpl.
  destruct (inter_fold_ex axis rest (remove_dups l0) Hrest) as [rc HF]. rewrite HF. simpl.
  apply inter_fold in HF as (_ & _ & Hin); [|apply NoDup_remove_dups]. apply py_sorted_total, sortable_spec.
  intros a b [Ha _]%Hin [Hb _]%Hin. rewrite elem_of_remove_dups in Ha, Hb.
  eapply (Hs a0 a0); [by left|by left|done..].
Qed.
(** The order of the arguments is irrelevant. *)
Lemma union_perm axis args args' u u' :
  args ≡ₚ args' -> union_labels axis args = Ok u -> union_labels axis args' = Ok u' -> u = u'.
Proof.
  intros Hp (S1 & _ & H1)%union_spec (S2 & _ & H2)%union_spec. eapply lt_sorted_unique; [done..|].
  intros x. rewrite H1, H2. by setoid_rewrite Hp.
Qed.
Lemma intersection_perm axis args args' u u' :
  args ≡ₚ args' -> intersection_labels axis args = Ok u -> intersection_labels axis args' = Ok u' -> u = u'.
Proof.
  intros Hp (_ & S1 & _ & H1)%intersection_spec (_ & S2 & _ & H2)%intersection_spec. eapply lt_sorted_unique; [done..|].
  intros x. rewrite H1, H2. by setoid_rewrite Hp.
Qed.

(** ** isaligned *)

Lemma isaligned_all y1 y2 : isaligned y1 y2 None = Ok (bool_decide (llabel y1 = llabel y2)).
Proof. done. Qed.
Lemma isaligned_axis y1 y2 axis b :
  isaligned y1 y2 (Some axis) = Ok b <->
  exists l1 l2, axis_label_is y1 axis l1 /\ axis_label_is y2 axis l2 /\ b = bool_decide (l1 = l2).
Proof.
  unfold isaligned. rewrite bind_ok. split.
  - intros (l1 & H1 & H). apply bind_ok in H as (l2 & H2 & [= <-]). apply label_at_is in H1, H2. by exists l1, l2.
  - intros (l1 & l2 & H1 & H2 & ->). apply label_at_is in H1, H2. exists l1. split; [done|]. by rewrite H2.
Qed.

(** ** ismissing, nan_replace, nans *)

Lemma ismissing_get x ix :
  nda_wf x -> aget (ismissing x) ix = (fun v => bool_decide (marker (nd_dtype x) = Some v)) <$> aget (nd_arr x) ix.
Proof.
  intros Hwf. unfold ismissing. destruct x as [dt a]. simpl. destruct dt; simpl; rewrite ?get_amap, ?get_full.
  - destruct (aget a ix) as [v|] eqn:E; [|done]. simpl. f_equal.
    apply (nda_wf_typed _ _ _ Hwf) in E. destruct v as [[]| | | | |]; done.
  - unfold nd_shape. simpl. destruct (decide (in_range (shape a) ix)) as [Hr|Hr].
    + destruct (proj2 (get_is_Some a ix (proj1 Hwf)) Hr) as [v ->]. done.
    + rewrite get_not_in_range by done. done.
  - unfold nd_shape. simpl. destruct (decide (in_range (shape a) ix)) as [Hr|Hr].
    + destruct (proj2 (get_is_Some a ix (proj1 Hwf)) Hr) as [v ->]. done.
    + rewrite get_not_in_range by done. done.
  - destruct (aget a ix) as [v|]; [|done]. simpl. f_equal. apply bool_decide_ext. naive_solver.
  - destruct (aget a ix) as [v|]; [|done]. simpl. f_equal. apply bool_decide_ext. naive_solver.
Qed.
Lemma ismissing_shape x : shape (ismissing x) = nd_shape x.
Proof. unfold ismissing. destruct x as [[] a]; done. Qed.
Lemma ismissing_wf x : nda_wf x -> arr_wf (ismissing x).
Proof. intros [Hwf _]. unfold ismissing. destruct x as [[] a]; simpl; try apply full_wf; by apply amap_wf. Qed.

Lemma bool_nda_wf m : arr_wf m -> nda_wf (bool_nda m).
Proof.
  intros Hwf. apply nda_wf_get; simpl; [by apply amap_wf|]. intros idx v. rewrite get_amap. destruct (aget m idx); [|done].
  by intros [= <-].
Qed.
Lemma larry_ismissing_spec y :
  valid y -> let z := larry_ismissing y in
  valid z /\ llabel z = llabel y /\ ldtype z = DBool /\
  forall ls, cell z ls = (fun v => VBool (bool_decide (marker (ldtype y) = Some v))) <$> cell y ls.
Proof.
  intros Hv z. assert (Hwf : nda_wf (lx y)) by (by destruct Hv). split_and!; try done.
  - split_and!.
    + by apply bool_nda_wf, ismissing_wf.
    + by destruct Hv as (_ & ? & _).
    + simpl. rewrite valid_shape by done. unfold lshape, nd_shape. simpl. by rewrite ismissing_shape.
    + exact (valid_nodup y Hv).
  - intros ls. unfold cell. simpl. destruct (locate (llabel y) ls) as [idx|]; simpl; [|done].
    change (larr z) with (amap VBool (ismissing (lx y))). rewrite get_amap, ismissing_get by done.
    change (nd_arr (lx y)) with (larr y). by destruct (aget (larr y) idx).
Qed.

Lemma nan_replace_spec y v z :
  valid y -> nan_replace y v = Ok z ->
  valid z /\ llabel z = llabel y /\ ldtype z = ldtype y /\ (ldtype y <> DFloat -> z = y) /\
  (ldtype y = DFloat -> exists n, to_num v = Some n /\
     forall ls, cell z ls = (fun u => if decide (u = VFloat NaN) then VFloat n else u) <$> cell y ls).
Proof.
  intros Hv. unfold nan_replace. destruct (ldtype y) eqn:Hdt.
  - rewrite bind_ok. intros (r & Hr & [= <-]). apply of_opt_ok in Hr.
    destruct (map_valid y DFloat (fun u => if val_isnan u then VFloat r else u)) as [Hvz Hc]; [done| |].
    { intros u Hu. rewrite Hdt in Hu. by destruct (val_isnan u). }
    split; [done|]. split; [done|]. split; [done|]. split; [done|]. intros _. exists r. split; [done|].
    intros ls. rewrite Hc. destruct (cell y ls) as [u|]; [|done]. simpl. f_equal. by destruct u as [[]| | | | |].
  - rewrite bind_ok. intros (r & Hr & [= <-]). split; [done|]. split; [done|]. split; [exact Hdt|]. by split.
  - intros [= <-]. split; [done|]. split; [done|]. split; [exact Hdt|]. by split.
  - intros [= <-]. split; [done|]. split; [done|]. split; [exact Hdt|]. by split.
  - intros [= <-]. split; [done|]. split; [done|]. split; [exact Hdt|]. by split.
Qed.
Lemma nan_replace_iff y v :
  (exists z, nan_replace y v = Ok z) <-> ((ldtype y = DFloat \/ ldtype y = DInt) -> is_Some (to_num v)).
Proof.
  unfold nan_replace. split.
  - intros [z Hz]. destruct (ldtype y); [| |naive_solver..];
      rewrite bind_ok in Hz; destruct Hz as (r & Hr & _); apply of_opt_ok in Hr; rewrite Hr; by eexists.
  - intros H. destruct (ldtype y); [| |by eexists..];
      (destruct (to_num v) as [n|] eqn:Hn; [by eexists|]; destruct H as [? [=]]; by (left + right)).
Qed.
Lemma nan_replace_err y v e : nan_replace y v = Err e -> e = TypeError.
Proof. unfold nan_replace. destruct (ldtype y); try done; destruct (to_num v); try done; by intros [= <-]. Qed.

Lemma nans_spec sh dt x :
  nans sh dt = Ok x -> exists m, marker dt = Some m /\ nda_wf x /\ nd_dtype x = dt /\ nd_shape x = sh /\
  forall idx, in_range sh idx -> aget (nd_arr x) idx = Some m.
Proof.
  assert (H : forall v, has_dtype dt v = true -> nda_wf (Nda dt (full sh v)) /\ forall idx, in_range sh idx -> aget (full sh v) idx = Some v).
  { intros v Hv. split.
    - apply nda_wf_get; simpl; [apply full_wf|]. intros idx w. rewrite get_full. case_decide; [|done]. by intros [= <-].
    - intros idx Hi. rewrite get_full. by rewrite decide_True. }
  unfold nans. destruct dt; try done; intros [= <-]; eexists; (split; [reflexivity|]); simpl;
    match goal with |- nda_wf (Nda ?d (full sh ?v)) /\ _ => destruct (H v) as [? ?]; [done|] end; done.
Qed.
Lemma nans_ok sh dt : (exists x, nans sh dt = Ok x) <-> is_Some (marker dt).
Proof. destruct dt; simpl; split; try (by intros [? ?]); by eauto. Qed.
Lemma nans_err sh dt : marker dt = None -> nans sh dt = Err TypeError.
Proof. by destruct dt. Qed.

(** ** align_axis *)


Lemma align_axis_label_lr lars axes j u :
  j = JLeft \/ j = JRight -> length axes = length lars -> align_axis_label lars axes j = Ok u -> common_label lars axes j u.
Proof.
  intros Hj Hlen. unfold align_axis_label. destruct lars as [|y0 rest]; [done|]. destruct axes as [|a0 axes]; [done|].
  rewrite bind_ok. intros (a & [= <-] & H). destruct Hj as [-> | ->].
  - exists y0, a0. split_and!; [done..|]. by apply label_at_is.
  - apply bind_ok in H as (yn & Hyn & H). apply bind_ok in H as (an & Han & H).
    unfold of_opt in Hyn, Han. destruct (last (y0 :: rest)) as [yn'|] eqn:Ly; [|done]. destruct (last (a0 :: axes)) as [an'|] eqn:La; [|done].
    injection Hyn as ->. injection Han as ->. exists yn, an. rewrite last_lookup in Ly. rewrite last_lookup in La. rewrite Hlen in La.
    split_and!; [done..|]. by apply label_at_is.
Qed.

Lemma foldM_zip_const {S} (f : S -> Z -> larry -> res S) (axes : list Z) a rest k s :
  (forall i, i < length rest -> axes !! (k + i) = Some a) ->
  foldM (fun s (p : nat * larry) => a ← of_opt IndexError (axes !! p.1); f s a p.2) s (zip (seq k (length rest)) rest) =
  foldM (fun s y => f s a y) s rest.
Proof.
  revert k s. induction rest as [|y rest IH]; intros k s H; [done|]. simpl.
  rewrite <-(Nat.add_0_r k) at 1. rewrite (H 0) by (simpl; lia). simpl.
  destruct (f s a y) as [s'|]; [|done]. apply IH. intros i Hi. replace (Datatypes.S k + i) with (k + Datatypes.S i) by lia.
  apply H. simpl. lia.
Qed.
Lemma align_axis_label_const lars (axes : list Z) a (j : join_type) :
  (forall i, i < length lars -> axes !! i = Some a) -> lars <> [] ->
  align_axis_label lars axes JInner = intersection_labels a lars /\
  align_axis_label lars axes JOuter = union_labels a lars.
Proof.
  intros Hc Hne. destruct lars as [|y0 rest]; [done|]. unfold align_axis_label, intersection_labels, union_labels.
  assert (Hh : head axes = Some a). { specialize (Hc 0). destruct axes; simpl in *; apply Hc; lia. }
  assert (Hr : forall i, i < length rest -> axes !! (0 + i) = Some a) by (intros i Hi; apply Hc; simpl; lia).
  rewrite Hh. simpl. destruct (label_at y0 a) as [l0|]; simpl; [|done]. split.
  - f_equal. exact (foldM_zip_const (fun label a y => l ← label_at y a; Ok (filter (fun x => x ∈ l) label)) axes a rest 0 (remove_dups l0) Hr).
  - f_equal. exact (foldM_zip_const (fun label a y => l ← label_at y a; Ok (remove_dups (label ++ l))) axes a rest 0 (remove_dups l0) Hr).
Qed.

Lemma align_axis_label_spec lars (axes : list Z) j u :
  length axes = length lars ->
  (j = JLeft \/ j = JRight \/ exists a, forall i, i < length lars -> axes !! i = Some a) ->
  align_axis_label lars axes j = Ok u -> common_label lars axes j u.
Proof.
  intros Hlen Hj. destruct (decide (j = JLeft \/ j = JRight)) as [Hlr|Hlr].
  { by apply align_axis_label_lr. }
  destruct Hj as [?|[?|[a Ha]]]; [tauto..|]. intros H.
  assert (Hne : lars <> []) by (by destruct lars).
  destruct (align_axis_label_const lars axes a j Ha Hne) as [E1 E2].
  destruct j; try tauto.
  - rewrite E1 in H. apply intersection_spec in H as (_ & Hs & _ & Hin). split; [done|]. intros x. rewrite Hin. split.
    + intros Hall i y a' Hy Ha'. assert (a' = a) as ->. { specialize (Ha i). rewrite Ha' in Ha. assert (Some a' = Some a) by (apply Ha; by eapply lookup_lt_Some). congruence. }
      apply Hall. by eapply elem_of_list_lookup_2.
    + intros Hall y Hy. apply elem_of_list_lookup in Hy as [i Hy]. eapply Hall; [done|]. apply Ha. by eapply lookup_lt_Some.
  - rewrite E2 in H. apply union_spec in H as (Hs & _ & Hin). split; [done|]. intros x. rewrite Hin. split.
    + intros (y & l & Hy & Hl & Hx). apply elem_of_list_lookup in Hy as [i Hy]. exists i, y, a. split; [done|]. split; [|by exists l].
      apply Ha. by eapply lookup_lt_Some.
    + intros (i & y & a' & Hy & Ha' & l & Hl & Hx). assert (a' = a) as ->. { specialize (Ha i). rewrite Ha' in Ha. assert (Some a' = Some a) by (apply Ha; by eapply lookup_lt_Some). congruence. }
      exists y, l. split; [by eapply elem_of_list_lookup_2|done].
  - destruct lars; [done|]. simpl in H. destruct (of_opt IndexError (head axes)); done.
  - destruct lars; [done|]. simpl in H. destruct (of_opt IndexError (head axes)); done.
Qed.

(** Each output is its input moved to the common label along its axis. *)
Lemma align_axis_spec lars axes j zs :
  Forall valid lars -> align_axis lars axes j = Ok zs ->
  exists u, align_axis_label lars axes j = Ok u /\ length zs = length lars /\
  forall i y z, lars !! i = Some y -> zs !! i = Some z ->
    exists a ax old, axes !! i = Some a /\ axis_is y a ax /\ llabel y !! ax = Some old /\
    llabel z = <[ax := u]> (llabel y) /\ realigned y z.
Proof.
  intros Hv. unfold align_axis. rewrite bind_ok. intros (_ & _ & H). destruct (decide _) as [|Hj]; [done|].
  apply bind_ok in H as (u & Hu & H). exists u. split; [done|]. pose proof (mapR_length _ _ _ H) as HL.
  rewrite zip_with_length, seq_length in HL. split; [lia|]. apply mapR_ok in H. intros i y z Hy Hz.
  eapply Forall2_lookup_lr in H; [|apply lookup_zip_with_Some; exists i, y; split; [reflexivity|]; split; [|exact Hy]|exact Hz].
  2:{ apply lookup_seq. split; [done|]. by eapply lookup_lt_Some. }
  simpl in H. apply bind_ok in H as (a & Ha & Hm). apply of_opt_ok in Ha.
  apply morph_spec in Hm as (ax & old & Hax & Hold & _ & Hl & Hr & _).
  - exists a, ax, old. split_and!; try done. by apply py_axis_is.
  - by eapply Forall_lookup_1 in Hv.
Qed.

Lemma axis_is_bounds y a : (- Z.of_nat (length (llabel y)) <= a < Z.of_nat (length (llabel y)))%Z <-> exists ax, axis_is y a ax.
Proof.
  split.
  - intros Hb. destruct (decide (0 <= a)%Z).
    + exists (Z.to_nat a). split; [lia|]. left. lia.
    + exists (Z.to_nat (a + Z.of_nat (length (llabel y)))). split; [lia|]. right. lia.
  - intros (ax & Hlt & [->| ->]); lia.
Qed.

Lemma align_axis_ok lars axes j u :
  Forall valid lars -> length axes = length lars -> j <> JSkip -> j <> JBad ->
  (forall i y a, lars !! i = Some y -> axes !! i = Some a -> exists ax, axis_is y a ax) ->
  align_axis_label lars axes j = Ok u -> NoDup u ->
  exists zs, align_axis lars axes j = Ok zs.
Proof.
  intros Hv Hlen Hj1 Hj2 Hax Hu Hnd. unfold align_axis.
  destruct (mapR_total (fun p : nat * larry => a ← of_opt IndexError (axes !! p.1);
        if decide (Z.of_nat (lndim p.2) <= a \/ a < - Z.of_nat (lndim p.2))%Z
        then Err ValueError else Ok ()) (zip (seq 0 (length lars)) lars)) as [us ->].
  { intros [i y] [k Hk]%elem_of_list_lookup. apply lookup_zip_with_Some in Hk as (i' & y' & [= -> ->] & Hi & Hy).
    apply lookup_seq in Hi as [-> _]. simpl.
    destruct (lookup_lt_is_Some_2 axes k) as [a Ha]; [rewrite Hlen; by eapply lookup_lt_Some|]. rewrite Ha. simpl.
    rewrite decide_False; [by eauto|]. destruct (proj2 (axis_is_bounds y' a)) as [? ?]; [by eapply Hax|].
    pose proof (Forall_lookup_1 _ _ _ _ Hv Hy) as Hvy. rewrite valid_ndim in * by done. lia. }
  simpl. rewrite decide_False by naive_solver. rewrite Hu. simpl. apply mapR_total.
  intros [i y] [k Hk]%elem_of_list_lookup. apply lookup_zip_with_Some in Hk as (i' & y' & [= -> ->] & Hi & Hy).
  apply lookup_seq in Hi as [-> _]. simpl.
  destruct (lookup_lt_is_Some_2 axes k) as [a Ha]; [rewrite Hlen; by eapply lookup_lt_Some|]. rewrite Ha. simpl.
  destruct (Hax k y' a Hy Ha) as [ax Hax']. apply py_axis_is in Hax'. eapply morph_ok; [|done|done].
  by eapply Forall_lookup_1 in Hv.
Qed.
Lemma common_label_nodup lars axes j u : Forall valid lars -> common_label lars axes j u -> NoDup u.
Proof.
  intros Hv. destruct j; simpl; try done.
  - intros [? _]. by apply lt_sorted_nodup.
  - intros [? _]. by apply lt_sorted_nodup.
  - intros (y & a & Hy & _ & ax & _ & Hl). eapply (valid_axis_nodup y); [|done]. by eapply Forall_lookup_1 in Hv.
  - intros (y & a & Hy & _ & ax & _ & Hl). eapply (valid_axis_nodup y); [|done]. by eapply Forall_lookup_1 in Hv.
Qed.

(** The same axis for all larrys: success. *)
Lemma align_axis_same_ok lars a j :
  Forall valid lars -> lars <> [] -> j <> JSkip -> j <> JBad ->
  (forall y, y ∈ lars -> exists ax, axis_is y a ax) -> all_sortable a lars ->
  exists zs, align_axis lars (replicate (length lars) a) j = Ok zs.
Proof.
  intros Hv Hne Hj1 Hj2 Hax Hs.
  assert (Hall : Forall (fun y => exists l, axis_label_is y a l) lars).
  { apply Forall_forall. intros y Hy. destruct (Hax y Hy) as [ax Ha]. destruct (lookup_lt_is_Some_2 (llabel y) ax) as [l Hl]; [by destruct Ha|].
    exists l, ax. done. }
  assert (Hc : forall i, i < length lars -> replicate (length lars) a !! i = Some a) by (intros; by apply lookup_replicate).
  destruct (align_axis_label_const lars (replicate (length lars) a) a j Hc Hne) as [E1 E2].
  assert (Hu : exists u, align_axis_label lars (replicate (length lars) a) j = Ok u).
  { destruct j; try done.
    - rewrite E1. by apply intersection_ok.
    - rewrite E2. by apply union_ok.
    - destruct lars as [|y0 rest]; [done|]. simpl. inversion Hall as [|? ? [l Hl] _]; subst. exists l. by apply label_at_is.
    - unfold align_axis_label. destruct lars as [|y0 rest]; [done|]. 
      assert (La : last (replicate (length (y0 :: rest)) a) = Some a).
      { rewrite last_lookup, replicate_length. apply lookup_replicate_2. simpl. lia. }
      revert La. generalize (replicate (length (y0 :: rest)) a) as axs. intros axs La.
      destruct axs as [|a1 axs]; [done|]. simpl head. rewrite La. simpl of_opt at 1.
      destruct (last (y0 :: rest)) as [yn|] eqn:Ly; [|by apply last_None in Ly].
      simpl. assert (yn ∈ y0 :: rest). { apply last_Some in Ly as [l' ->]. apply elem_of_app. right. by left. }
      rewrite Forall_forall in Hall. destruct (Hall yn) as [l Hl]; [done|]. exists l. by apply label_at_is. }
  destruct Hu as [u Hu]. eapply align_axis_ok; try done.
  - by rewrite replicate_length.
  - intros i y a' Hy Ha'. apply lookup_replicate in Ha' as [-> _]. apply Hax. by eapply elem_of_list_lookup_2.
  - eapply (common_label_nodup lars _ j); [done|]. eapply align_axis_label_spec; [by rewrite replicate_length| |done].
    right. right. by exists a.
Qed.

Lemma align_axis_full lars axes j zs :
  Forall valid lars -> align_axis lars axes j = Ok zs -> length axes = length lars ->
  (j = JLeft \/ j = JRight \/ exists a, forall i, i < length lars -> axes !! i = Some a) ->
  exists u, common_label lars axes j u /\ length zs = length lars /\
  forall i y z, lars !! i = Some y -> zs !! i = Some z ->
    exists a ax old, axes !! i = Some a /\ axis_is y a ax /\ llabel y !! ax = Some old /\
    llabel z = <[ax := u]> (llabel y) /\ realigned y z.
Proof.
  intros Hv H Hlen Hj. apply align_axis_spec in H as (u & Hu & HL & Hz); [|done]. exists u. split; [|done].
  by eapply align_axis_label_spec.
Qed.
Lemma sortaxis_full y axis (reverse : bool) z :
  valid y -> sortaxis y axis reverse = Ok z ->
  valid z /\ ldtype z = ldtype y /\ length (llabel z) = length (llabel y) /\
  (forall ls, cell z ls = cell y ls) /\
  forall ax l l', llabel y !! ax = Some l -> llabel z !! ax = Some l' ->
    l' ≡ₚ l /\ (axis_selected y axis ax -> sorted_dir reverse l') /\ (~ axis_selected y axis ax -> l' = l).
Proof.
  intros Hv Hs. destruct (sortaxis_spec _ _ _ _ Hv Hs) as ((Hvz & _) & Hd & Hl & HL). split_and!; try done.
  intros ls. by eapply sortaxis_cells.
Qed.
Lemma foldM_each {A B} (f : A -> B -> res A) s l z x :
  foldM f s l = Ok z -> x ∈ l -> exists s' s'', f s' x = Ok s''.
Proof.
  revert s. induction l as [|b l IH]; intros s; simpl; [intros _ Hx; by apply elem_of_nil in Hx|].
  intros H. apply bind_ok in H as (s1 & H1 & H2). intros Hx. apply elem_of_cons in Hx as [->|Hx]; [eauto|by eapply IH].
Qed.
Lemma short_comparable l : length l <= 1 -> all_comparable l.
Proof.
  destruct l as [|x [|? ?]]; simpl; intros ? a b Ha Hb; [by apply elem_of_nil in Ha| |lia].
  apply elem_of_list_singleton in Ha, Hb. left. congruence.
Qed.
Lemma sortaxis_comparable y axis (reverse : bool) z ax l :
  valid y -> sortaxis y axis reverse = Ok z -> axis_selected y axis ax -> llabel y !! ax = Some l -> all_comparable l.
Proof.
  intros Hv H Hs Hl. unfold sortaxis in H.
  assert (Ha : exists a, a ∈ axes_of y axis /\ py_axis y a = Ok ax) .
  { destruct axis as [a|]; simpl in *.
    - exists a. split; [by left|by apply py_axis_is].
    - exists (Z.of_nat ax). split; [|by apply py_axis_nat]. apply elem_of_list_fmap. exists ax. split; [done|].
      apply elem_of_seq. rewrite <-valid_ndim by done. lia. }
  destruct Ha as (a & Hin & Hax). destruct (foldM_each _ _ _ _ _ H Hin) as (s' & s'' & Hst).
  unfold sortaxis_step in Hst. rewrite (py_get_shape _ _ _ _ Hv Hax Hl) in Hst. simpl in Hst.
  destruct (decide (1 < length l)); [|apply short_comparable; lia].
  rewrite Hax in Hst. simpl in Hst. rewrite (proj2 (axis_label_ok _ _ _) Hl) in Hst. simpl in Hst.
  apply bind_ok in Hst as (l' & Hl' & _). refine (proj1 (sortable_spec l) _).
  destruct reverse; unfold py_sorted_rev, py_sorted in Hl'; destruct (sortable l); done.
Qed.
Lemma sortaxis_idem y axis (reverse : bool) z :
  valid y -> sortaxis y axis reverse = Ok z -> sortaxis z axis reverse = Ok z.
Proof.
  intros Hv Hs. pose proof (sortaxis_spec _ _ _ _ Hv Hs) as ((Hvz & _) & Hd & Hl & HL).
  assert (Hsel : forall ax, axis_selected z axis ax <-> axis_selected y axis ax).
  { intros ax. unfold axis_selected, axis_is. by rewrite Hl. }
  destruct (sortaxis_ok z axis reverse) as [w Hw]; [done|..].
  - intros ax l' Hax Hl'. apply Hsel in Hax.
    destruct (lookup_lt_is_Some_2 (llabel y) ax) as [l Hy]; [rewrite <-Hl; by eapply lookup_lt_Some|].
    destruct (HL ax l l' Hy Hl') as (Hp & _ & _). intros a b Ha Hb. rewrite Hp in Ha, Hb.
    by eapply (sortaxis_comparable y axis reverse z ax l).
  - intros a ->. unfold sortaxis in Hs. simpl in Hs. destruct (sortaxis_step reverse y y a) as [s|] eqn:Hs'; [|done].
    clear Hs. rename Hs' into Hs. unfold sortaxis_step in Hs.
    apply bind_ok in Hs as (n & Hn & _). apply of_opt_ok in Hn.
    destruct (py_axis y a) as [ax|] eqn:E; [exists ax; apply py_axis_is in E; by apply (Hsel ax)|]. exfalso.
    unfold py_axis in E. unfold py_get in Hn. rewrite <-(valid_shape y Hv), fmap_length in Hn.
    by destruct (py_index _ a).
  - rewrite Hw. f_equal. exact (sorted_sortable_idem y axis reverse z Hv Hs w Hw).
Qed.
