(** Merging larrys with infinities, and exactly when merge succeeds. *)
From Verif Require Export AlignRaw.

Lemma solid_data y ls v : solid_at y ls = Some v -> data_at y ls = Some v.
Proof. unfold solid_at. destruct (data_at y ls); [|done]. simpl. by case_decide. Qed.
Lemma solid_cell y ls v : solid_at y ls = Some v -> is_Some (cell y ls).
Proof. intros H%solid_data. unfold data_at in H. apply bind_Some in H as (? & -> & _). eauto. Qed.
Lemma solid_val y ls v : solid_at y ls = Some v -> cell y ls = Some v.
Proof.
  intros H%solid_data. unfold data_at in H. apply bind_Some in H as (u & -> & H). by case_decide; [|injection H as ->].
Qed.
Lemma no_inf_solid y ls : no_inf y -> solid_at y ls = data_at y ls.
Proof.
  intros Hn. unfold solid_at. destruct (data_at y ls) as [v|] eqn:E; [|done]. simpl. rewrite decide_False; [done|].
  intros [_ H]. unfold data_at in E. apply bind_Some in E as (u & Hc & E). case_decide; [done|]. injection E as ->.
  destruct H as [-> | ->]; by apply Hn in Hc.
Qed.

(** The mask says whether there is data. *)
Lemma solid_realigned y z ls v :
  valid y -> realigned y z -> in_grid (llabel z) ls -> cell z ls = Some v ->
  mask_val (ldtype z) v = bool_decide (is_Some (solid_at y ls)) /\
  v = from_option (cast_to (ldtype z)) (missing_mark (ldtype z)) (cell y ls).
Proof.
  intros Hv (Hvz & Hd & Hm & Hc) Hg Hcz. rewrite (Hc ls Hg) in Hcz. injection Hcz as <-.
  unfold solid_at, data_at. destruct (cell y ls) as [v|] eqn:Hcy; simpl; (split; [|done]).
  - pose proof (valid_cell_typed _ _ _ Hv Hcy) as Ht. clear Hcy Hm Hc.
    assert (HM : mask_val (ldtype z) (cast_to (ldtype z) v) =
      if decide (marker (ldtype y) = Some v) then false
      else if decide (ldtype y = DFloat /\ (v = VFloat PInf \/ v = VFloat NInf)) then false else true).
    { destruct (ldtype y); destruct v; try discriminate Ht; (destruct Hd as [-> | ->]); simpl;
        repeat match goal with n : num |- _ => destruct n end; repeat case_decide; try done;
        try (by rewrite bool_decide_false by congruence); try (by rewrite bool_decide_true by congruence); naive_solver. }
    rewrite HM. case_decide; simpl; [done|]. by case_decide.
  - rewrite (Hm ls Hg) by (by apply cell_None_grid). by destruct (ldtype y).
Qed.
Lemma solid_overlap y1 y2 z1 z2 :
  valid y1 -> valid y2 -> lndim y1 = lndim y2 ->
  foldM merge_align_step (y1, y2) (seq 0 (lndim y1)) = Ok (z1, z2) ->
  any_true (mask_and (merge_mask (lx z1)) (merge_mask (lx z2))) = true <->
    exists ls, is_Some (solid_at y1 ls) /\ is_Some (solid_at y2 ls).
Proof.
  intros Hv1 Hv2 Hnd' HF. pose proof (merge_align_spec _ _ _ _ Hv1 Hv2 Hnd' HF) as Hal.
  pose proof (aligned_same_label _ _ _ _ _ Hv1 Hv2 Hnd' Hal) as Hlab.
  destruct Hal as (Hr1 & Hr2 & Hl1 & Hl2 & Hlt & _).
  pose proof (proj1 Hr1) as Hvz1. pose proof (proj1 Hr2) as Hvz2.
  assert (Hsh : shape (merge_mask (lx z1)) = shape (merge_mask (lx z2))).
    { rewrite !merge_mask_shape. by apply same_label_shape. }
    rewrite (any_true_cell z1); [|done| |].
    2:{ apply azip_wf; [by apply merge_mask_wf, valid_wf..|done]. }
    2:{ unfold mask_and. simpl. apply merge_mask_shape. }
    split.
    - intros [ls Hg]. exists ls. apply bind_Some in Hg as (idx & Hloc & Hg).
      unfold mask_and in Hg. rewrite get_azip in Hg by done.
      apply bind_Some in Hg as (m1 & Hm1 & Hg). apply bind_Some in Hg as (m2 & Hm2 & [= Hm]).
      assert (C1 : cell z1 ls = aget (larr z1) idx) by (unfold cell; by rewrite Hloc).
      assert (C2 : cell z2 ls = aget (larr z2) idx) by (unfold cell; by rewrite <-Hlab, Hloc).
      rewrite merge_mask_get in Hm1, Hm2. apply fmap_Some in Hm1 as (v1 & Hg1 & ->). apply fmap_Some in Hm2 as (v2 & Hg2 & ->).
      change (nd_arr (lx z1)) with (larr z1) in Hg1. change (nd_arr (lx z2)) with (larr z2) in Hg2.
      rewrite <-C1 in Hg1. rewrite <-C2 in Hg2.
      assert (G1 : in_grid (llabel z1) ls) by (apply valid_cell_grid; eauto).
      assert (G2 : in_grid (llabel z2) ls) by (apply valid_cell_grid; eauto).
      destruct (solid_realigned y1 z1 ls v1) as [M1 _]; try done.
      destruct (solid_realigned y2 z2 ls v2) as [M2 _]; try done.
      unfold ldtype in M1, M2. rewrite M1, M2 in Hm. apply andb_true_iff in Hm as [P1 P2].
      by apply bool_decide_eq_true in P1, P2.
    - intros (ls & D1 & D2). exists ls.
      assert (Y1 : in_grid (llabel y1) ls).
      { apply valid_cell_grid; [done|]. destruct D1 as [v D1]. by eapply solid_cell. }
      assert (Y2 : in_grid (llabel y2) ls).
      { apply valid_cell_grid; [done|]. destruct D2 as [v D2]. by eapply solid_cell. }
      assert (G1 : in_grid (llabel z1) ls).
      { rewrite in_grid_alt in Y1, Y2 |- *. destruct Y1 as [Hlen Y1], Y2 as [_ Y2]. split; [congruence|].
        intros ax l u Hl Hu.
        destruct (lookup_lt_is_Some_2 (llabel y1) ax) as [l1 Hy1]. { rewrite <-Hlen. by eapply lookup_lt_Some. }
        destruct (lookup_lt_is_Some_2 (llabel y2) ax) as [l2 Hy2].
        { rewrite valid_ndim, <-Hnd', <-valid_ndim by done. by eapply lookup_lt_Some. }
        destruct (Hlt ax l1 l2 u u) as [_ HU]; try done.
        { rewrite <-valid_ndim by done. by eapply lookup_lt_Some. } { congruence. }
        unfold union_label in HU. case_decide; [subst; by eapply Y1|]. apply HU. left. by eapply Y1. }
      assert (G2 : in_grid (llabel z2) ls) by (by rewrite <-Hlab).
      destruct (proj2 (valid_cell_grid z1 ls Hvz1) G1) as [v1 C1]. destruct (proj2 (valid_cell_grid z2 ls Hvz2) G2) as [v2 C2].
      destruct (solid_realigned y1 z1 ls v1) as [M1 _]; try done.
      destruct (solid_realigned y2 z2 ls v2) as [M2 _]; try done.
      rewrite bool_decide_true in M1, M2 by done.
      unfold cell in C1, C2. rewrite <-Hlab in C2. destruct (locate (llabel z1) ls) as [idx|] eqn:Hloc; [|done].
      simpl in *. unfold mask_and. rewrite get_azip by done. rewrite !merge_mask_get.
      change (nd_arr (lx z1)) with (larr z1). change (nd_arr (lx z2)) with (larr z2). rewrite C1, C2. simpl.
      unfold ldtype in M1, M2. by rewrite M1, M2.
Qed.


(** The dtypes of the aligned larrys. *)
Lemma gains_at y o : gains y o <->
  exists i l l' u, llabel y !! i = Some l /\ llabel o !! i = Some l' /\ u ∈ l' /\ u ∉ l.
Proof.
  unfold gains. rewrite Exists_exists. split.
  - intros ([l l'] & Hin & H). apply Exists_exists in H as (u & ? & ?). apply elem_of_list_lookup in Hin as [i Hi].
    apply lookup_zip_with_Some in Hi as (? & ? & [= <- <-] & ? & ?). naive_solver.
  - intros (i & l & l' & u & H1 & H2 & Hu & Hn). exists (l, l'). split; [|apply Exists_exists; eauto].
    apply elem_of_list_lookup. exists i. apply lookup_zip_with_Some. eauto.
Qed.
Definition gains_before (k : nat) (y o : larry) : Prop :=
  exists i l l' u, i < k /\ llabel y !! i = Some l /\ llabel o !! i = Some l' /\ u ∈ l' /\ u ∉ l.
Definition dtype_upto (k : nat) (y o z : larry) : Prop :=
  ldtype z = missing_dtype (ldtype y) /\ gains_before k y o \/ ldtype z = ldtype y /\ ~ gains_before k y o.
Lemma gains_step k y o l l' :
  llabel y !! k = Some l -> llabel o !! k = Some l' ->
  gains_before (S k) y o <-> gains_before k y o \/ exists u, u ∈ l' /\ u ∉ l.
Proof.
  intros H1 H2. split.
  - intros (i & a & b & u & Hi & Ha & Hb & Hu & Hn). destruct (decide (i = k)) as [-> |]; [right; exists u; by simplify_eq|].
    left. exists i, a, b, u. split_and!; try done. lia.
  - intros [(i & a & b & u & Hi & H)|(u & ? & ?)]; [exists i, a, b, u; split; [lia|done]|]. exists k, l, l', u. split_and!; try done. lia.
Qed.
Lemma dtype_step k y o z w l l' u :
  llabel y !! k = Some l -> llabel o !! k = Some l' -> dtype_upto k y o z ->
  u <> [] -> (forall x, x ∈ u <-> x ∈ l \/ x ∈ l') ->
  ldtype w = morph_dtype (ldtype z) l u -> dtype_upto (S k) y o w.
Proof.
  intros H1 H2 Hz Hne Hu Hd. unfold dtype_upto. rewrite (gains_step k y o l l') by done.
  assert (HF : Forall (fun x => x ∈ l) u <-> ~ exists x, x ∈ l' /\ x ∉ l).
  { rewrite Forall_forall. split.
    - intros HF (x & Hx & Hn). apply Hn, HF, Hu. by right.
    - intros Hno x [?|?]%Hu; [done|]. destruct (decide (x ∈ l)) as [|Hn]; [done|]. destruct Hno. eauto. }
  unfold morph_dtype in Hd. destruct (decide (u = l \/ u <> [] /\ Forall (fun x => x ∈ l) u)) as [Hc|Hc].
  - assert (Hno : ~ exists x, x ∈ l' /\ x ∉ l).
    { destruct Hc as [-> |[_ Hc]]; [|by apply HF]. intros (x & Hx & Hn). apply Hn, Hu. by right. }
    rewrite Hd. destruct Hz as [[-> ?]|[-> ?]]; [by left; eauto|right]. split; [done|]. tauto.
  - left. split.
    + rewrite Hd. destruct Hz as [[-> ?]|[-> ?]]; [apply missing_dtype_idemp|done].
    + right. destruct (decide (Exists (fun x => x ∉ l) l')) as [He|Hn].
      * apply Exists_exists in He as (x & ? & ?). eauto.
      * exfalso. apply Hc. right. split; [done|]. apply HF. intros (x & ? & ?). apply Hn, Exists_exists. eauto.
Qed.
Lemma dtype_same k y o z l :
  llabel y !! k = Some l -> llabel o !! k = Some l -> dtype_upto k y o z -> dtype_upto (S k) y o z.
Proof.
  intros H1 H2 Hz. unfold dtype_upto. rewrite (gains_step k y o l l) by done.
  assert (~ exists u, u ∈ l /\ u ∉ l) by (intros (? & ? & ?); done). destruct Hz as [[? ?]|[? ?]]; [left|right]; tauto.
Qed.
Lemma dtype_all n y o z : length (llabel y) = n -> dtype_upto n y o z -> ldtype z = joined_dtype y o.
Proof.
  intros Hn Hz. unfold joined_dtype. assert (HG : gains y o <-> gains_before n y o).
  { rewrite gains_at. split.
    - intros (i & l & l' & u & H1 & H). exists i, l, l', u. split; [rewrite <-Hn; by eapply lookup_lt_Some|done].
    - intros (i & l & l' & u & _ & H). by exists i, l, l', u. }
  destruct Hz as [[-> ?]|[-> ?]]; [by rewrite decide_True by tauto|by rewrite decide_False by tauto].
Qed.
Definition comparable_upto (k : nat) (y1 y2 : larry) : Prop :=
  forall i l1 l2, i < k -> llabel y1 !! i = Some l1 -> llabel y2 !! i = Some l2 -> l1 = l2 \/ all_comparable (l1 ++ l2).
Lemma merge_align_dtype y1 y2 z1 z2 :
  valid y1 -> valid y2 -> lndim y1 = lndim y2 ->
  foldM merge_align_step (y1, y2) (seq 0 (lndim y1)) = Ok (z1, z2) ->
  ldtype z1 = joined_dtype y1 y2 /\ ldtype z2 = joined_dtype y2 y1 /\ comparable_upto (lndim y1) y1 y2.
Proof.
  intros Hv1 Hv2 Hnd HF.
  pose (P := fun k (st : larry * larry) =>
    aligned_upto (fun _ _ _ _ _ => True) k y1 y2 st.1 st.2 /\ dtype_upto k y1 y2 st.1 /\ dtype_upto k y2 y1 st.2 /\ comparable_upto k y1 y2).
  assert (HP : P (lndim y1) (z1, z2)).
  { eapply (foldM_seq_inv P); [| |exact HF].
    { split_and!; [by apply aligned_upto_0| | |].
      - right. split; [done|]. intros (? & ? & ? & ? & ? & _). lia.
      - right. split; [done|]. intros (? & ? & ? & ? & ? & _). lia.
      - intros ? ? ? ?. lia. }
    clear z1 z2 HF. intros k [z1 z2] [w1 w2] Hk (HA & HD1 & HD2 & HC). simpl in HA, HD1, HD2.
    pose proof HA as (Hr1 & Hr2 & _ & _ & _ & Hge).
    destruct (lookup_lt_is_Some_2 (llabel y1) k) as [l1 Hl1]; [by rewrite valid_ndim|].
    destruct (lookup_lt_is_Some_2 (llabel y2) k) as [l2 Hl2]; [rewrite valid_ndim by done; lia|].
    destruct (Hge k) as [G1 G2]; [lia|]. rewrite Hl1 in G1. rewrite Hl2 in G2.
    unfold merge_align_step.
    rewrite (proj2 (axis_label_ok _ _ _) G1), (proj2 (axis_label_ok _ _ _) G2). cbn [mbind res_bind].
    destruct (decide (l1 = l2)) as [<-|Hne].
    - intros [= <- <-]. split_and!; simpl.
      + eapply (aligned_upto_step _ k y1 y2 z1 z2 z1 z2 l1 l1 l1 l1); try done.
        * apply realigned_refl. by destruct Hr1.
        * apply realigned_refl. by destruct Hr2.
        * by rewrite list_insert_id.
        * by rewrite list_insert_id.
      + by eapply dtype_same.
      + by eapply dtype_same.
      + intros i a b Hi Ha Hb. destruct (decide (i = k)) as [-> |]; [left; congruence|]. apply (HC i); try done. lia.
    - rewrite bind_ok. intros (u & Hu & H). apply bind_ok in H as (w1' & Hw1 & H). apply bind_ok in H as (w2' & Hw2 & [= -> ->]).
      destruct (morph_spec z1 _ _ _ (proj1 Hr1) Hw1) as (a1 & o1 & Ha1 & Ho1 & _ & Hlw1 & Hrw1 & Hd1).
      destruct (morph_spec z2 _ _ _ (proj1 Hr2) Hw2) as (a2 & o2 & Ha2 & Ho2 & _ & Hlw2 & Hrw2 & Hd2).
      rewrite py_axis_nat in Ha1 by (by eapply lookup_lt_Some). injection Ha1 as <-.
      rewrite py_axis_nat in Ha2 by (by eapply lookup_lt_Some). injection Ha2 as <-.
      assert (o1 = l1) as -> by congruence. assert (o2 = l2) as -> by congruence.
      assert (Hcmp : all_comparable (l1 ++ l2)) by (apply (sorted_union_ex l1 l2); eauto).
      apply sorted_set_ok in Hu as [_ Hin].
      assert (Hune : u <> []).
      { intros ->. apply Hne. assert (HE : forall x, x ∉ l1 ++ l2) by (intros x Hx%Hin; by apply elem_of_nil in Hx).
        assert (l1 ++ l2 = []) as [-> ->]%app_eq_nil; [|done]. by apply elem_of_nil_inv. }
      assert (Hin' : forall x, x ∈ u <-> x ∈ l1 \/ x ∈ l2) by (intros x; rewrite Hin; apply elem_of_app).
      split_and!; simpl.
      + eapply (aligned_upto_step _ k y1 y2 z1 z2 w1 w2 l1 l2 u u); done.
      + by eapply (dtype_step k y1 y2 z1 w1 l1 l2 u).
      + eapply (dtype_step k y2 y1 z2 w2 l2 l1 u); try done. intros x. rewrite Hin'. tauto.
      + intros i a b Hi Ha Hb. destruct (decide (i = k)) as [-> |]; [right; by simplify_eq|]. apply (HC i); try done. lia. }
  destruct HP as (_ & D1 & D2 & HC). simpl in D1, D2. split_and!; [| |done].
  - eapply dtype_all; [|exact D1]. by rewrite valid_ndim.
  - rewrite Hnd in D2. eapply dtype_all; [|exact D2]. by rewrite valid_ndim.
Qed.

Lemma dtype_fits_safe d1 d2 : d2 <> DObj -> dtype_fits d1 d2 <-> safe_cast d1 d2 = true.
Proof. intros Hne. unfold dtype_fits. destruct d1, d2; simpl; naive_solver. Qed.
Lemma mergeable_spec d1 d2 : mergeable d1 d2 <-> d1 = d2 \/ numeric d1 = true /\ numeric d2 = true.
Proof. unfold mergeable. destruct d1, d2; simpl; naive_solver. Qed.
Lemma joined_obj y1 y2 : mergeable (ldtype y1) (ldtype y2) -> joined_dtype y1 y2 = DObj -> joined_dtype y2 y1 = DObj.
Proof.
  unfold joined_dtype. intros Hm. destruct (ldtype y1) eqn:E1, (ldtype y2) eqn:E2; unfold mergeable in Hm; simpl; repeat case_decide; naive_solver.
Qed.
Lemma joined_fits y1 y2 : mergeable (ldtype y1) (ldtype y2) ->
  dtype_fits (joined_dtype y2 y1) (joined_dtype y1 y2) <-> safe_cast (joined_dtype y2 y1) (joined_dtype y1 y2) = true.
Proof.
  intros Hm. destruct (decide (joined_dtype y1 y2 = DObj)) as [E|]; [|by apply dtype_fits_safe].
  rewrite (joined_obj _ _ Hm E), E. unfold dtype_fits. simpl. tauto.
Qed.
Lemma any_solid y1 y2 z1 z2 :
  valid y1 -> valid y2 -> lndim y1 = lndim y2 ->
  foldM merge_align_step (y1, y2) (seq 0 (lndim y1)) = Ok (z1, z2) ->
  any_true (merge_mask (lx z2)) = true <-> exists ls, is_Some (solid_at y2 ls).
Proof.
  intros Hv1 Hv2 Hnd HF. pose proof (merge_align_spec _ _ _ _ Hv1 Hv2 Hnd HF) as (Hr1 & Hr2 & Hl1 & Hl2 & Hlt & _).
  pose proof (proj1 Hr2) as Hvz2.
  rewrite (any_true_cell z2); [|done|by apply merge_mask_wf, valid_wf|apply merge_mask_shape].
  split.
  - intros [ls Hls]. exists ls. rewrite merge_mask_lar in Hls by done. apply fmap_Some in Hls as (v & Hc & Hm).
    assert (G2 : in_grid (llabel z2) ls) by (apply valid_cell_grid; eauto).
    destruct (solid_realigned y2 z2 ls v) as [M2 _]; try done. rewrite M2 in Hm. symmetry in Hm. by apply bool_decide_eq_true in Hm.
  - intros (ls & v & Hs). exists ls. rewrite merge_mask_lar by done.
    assert (Y2 : in_grid (llabel y2) ls) by (apply valid_cell_grid; [done|by eapply solid_cell]).
    assert (G2 : in_grid (llabel z2) ls).
    { rewrite in_grid_alt in Y2 |- *. destruct Y2 as [Hlen Y2]. split; [congruence|].
      intros ax l u Hl Hu.
      destruct (lookup_lt_is_Some_2 (llabel y2) ax) as [l2 Hy2]. { rewrite <-Hlen. by eapply lookup_lt_Some. }
      destruct (lookup_lt_is_Some_2 (llabel y1) ax) as [l1 Hy1].
      { rewrite valid_ndim, Hnd, <-valid_ndim by done. by eapply lookup_lt_Some. }
      destruct (lookup_lt_is_Some_2 (llabel z1) ax) as [r Hr]. { rewrite Hl1. by eapply lookup_lt_Some. }
      destruct (Hlt ax l1 l2 r u) as [-> HU]; try done.
      { rewrite <-valid_ndim by done. by eapply lookup_lt_Some. }
      unfold union_label in HU. case_decide as E; [subst; by eapply Y2|]. apply HU. right. by eapply Y2. }
    destruct (proj2 (valid_cell_grid z2 ls Hvz2) G2) as [v2 C2]. rewrite C2. simpl.
    destruct (solid_realigned y2 z2 ls v2) as [M2 _]; try done. rewrite M2. by rewrite bool_decide_true by eauto.
Qed.

Lemma merge_any y1 y2 update z :
  valid y1 -> valid y2 -> larry_merge y1 y2 update = Ok z ->
  lndim y1 = lndim y2 /\ valid z /\ merge_labels y1 y2 z /\ ldtype z = joined_dtype y1 y2 /\
  (forall ls, in_grid (llabel z) ls ->
     cell z ls = Some (match solid_at y2 ls, cell y1 ls with
                       | Some v, _ => cast_to (ldtype z) v
                       | None, Some v => cast_to (ldtype z) v
                       | None, None => missing_mark (ldtype z)
                       end)).
Proof.
  intros Hv1 Hv2. unfold larry_merge. destruct (decide (lndim y1 <> lndim y2)) as [|Hnd]; [done|]. apply dec_stable in Hnd. rewrite bind_ok.
  intros ([z1 z2] & HF & H). pose proof (merge_align_spec _ _ _ _ Hv1 Hv2 Hnd HF) as Hal.
  pose proof (aligned_same_label _ _ _ _ _ Hv1 Hv2 Hnd Hal) as Hlab.
  destruct (merge_align_dtype _ _ _ _ Hv1 Hv2 Hnd HF) as (Hd1 & Hd2 & _).
  destruct Hal as (Hr1 & Hr2 & Hl1 & Hl2 & Hlt & _).
  pose proof (proj1 Hr1) as Hvz1. pose proof (proj1 Hr2) as Hvz2.
  split; [done|].
  assert (HML : forall x, merge_labels y1 y2 (Larry x (llabel z1))).
  { intros x. split; [done|]. intros ax l1 l2 u H1 H2 Hu. simpl in Hu.
    apply (Hlt ax l1 l2 u u); try done; [|congruence]. rewrite <-valid_ndim by done. by eapply lookup_lt_Some. }
  case_decide as Hkind; [|case_decide; [destruct (negb _ && _)|]; done].
  destruct (negb update && any_true (mask_and (merge_mask (lx z1)) (merge_mask (lx z2)))); [done|].
  assert (Hcells : forall ls, in_grid (llabel z1) ls -> exists v1 v2,
    cell z1 ls = Some v1 /\ cell z2 ls = Some v2 /\
    mask_val (ldtype z2) v2 = bool_decide (is_Some (solid_at y2 ls)) /\
    v2 = from_option (cast_to (ldtype z2)) (missing_mark (ldtype z2)) (cell y2 ls) /\
    v1 = from_option (cast_to (ldtype z1)) (missing_mark (ldtype z1)) (cell y1 ls)).
  { intros ls G1. assert (G2 : in_grid (llabel z2) ls) by (by rewrite <-Hlab).
    destruct (proj2 (valid_cell_grid z1 ls Hvz1) G1) as [v1 C1]. destruct (proj2 (valid_cell_grid z2 ls Hvz2) G2) as [v2 C2].
    destruct (solid_realigned y1 z1 ls v1) as (M1 & ?); try done.
    destruct (solid_realigned y2 z2 ls v2) as (M2 & ?); try done. exists v1, v2. done. }
  destruct (any_true (merge_mask (lx z2))) eqn:Hany.
  - apply bind_ok in H as (x & Hx & [= <-]).
    destruct (putmask_spec z1 z2 x Hvz1 Hvz2 Hlab Hx) as (Hdx & Hvx & Hsafe & Hcx).
    assert (Hdz : ldtype (Larry x (llabel z1)) = ldtype z1) by exact Hdx. rewrite Hdz.
    split; [done|]. split; [apply HML|]. split; [done|]. intros ls G1. simpl in G1. rewrite Hcx.
    destruct (Hcells ls G1) as (v1 & v2 & -> & -> & M2 & D2 & D1). simpl. rewrite M2. f_equal.
    destruct (solid_at y2 ls) as [u|] eqn:E2; simpl.
    + apply solid_val in E2. rewrite D2, E2. simpl.
      eapply same_kind_cases; [exact Hkind|by destruct Hr1 as (_ & ? & _)|by destruct Hr2 as (_ & ? & _)|done|].
      by eapply valid_cell_typed.
    + rewrite D1. by destruct (cell y1 ls).
  - injection H as <-. split; [done|]. split.
    { specialize (HML (lx z1)). by destruct z1. }
    split; [done|]. intros ls G1. destruct (Hcells ls G1) as (v1 & v2 & C1 & C2 & M2 & D2 & D1). rewrite C1. f_equal.
    assert (solid_at y2 ls = None) as ->.
    { destruct (solid_at y2 ls) as [u|] eqn:E2; [|done].
      assert (any_true (merge_mask (lx z2)) = true) as E; [|congruence].
      apply (any_solid y1 y2 z1 z2 Hv1 Hv2 Hnd HF). exists ls. by rewrite E2. }
    rewrite D1. by destruct (cell y1 ls).
Qed.

Lemma merge_iff y1 y2 update :
  valid y1 -> valid y2 ->
  (exists z, larry_merge y1 y2 update = Ok z) <->
  lndim y1 = lndim y2 /\
  (forall i l1 l2, llabel y1 !! i = Some l1 -> llabel y2 !! i = Some l2 -> l1 = l2 \/ all_comparable (l1 ++ l2)) /\
  mergeable (ldtype y1) (ldtype y2) /\
  (update = true \/ forall ls, ~ (is_Some (solid_at y1 ls) /\ is_Some (solid_at y2 ls))) /\
  ((forall ls, solid_at y2 ls = None) \/ dtype_fits (joined_dtype y2 y1) (joined_dtype y1 y2)).
Proof.
  intros Hv1 Hv2. unfold larry_merge. split.
  - intros [z Hz]. destruct (decide (lndim y1 <> lndim y2)) as [|Hnd]; [done|]. apply dec_stable in Hnd.
    apply bind_ok in Hz as ([z1 z2] & HF & H). split; [done|].
    destruct (merge_align_dtype _ _ _ _ Hv1 Hv2 Hnd HF) as (Hd1 & Hd2 & HC).
    split.
    { intros i l1 l2 H1 H2. apply (HC i); try done. rewrite <-valid_ndim by done. by eapply lookup_lt_Some. }
    destruct (decide (ldtype y1 = ldtype y2 \/ numeric (ldtype y1) = true /\ numeric (ldtype y2) = true)) as [Hk|];
      [|case_decide; [destruct (negb _ && _)|]; done].
    apply mergeable_spec in Hk. split; [done|].
    pose proof (solid_overlap _ _ _ _ Hv1 Hv2 Hnd HF) as Hover. pose proof (any_solid _ _ _ _ Hv1 Hv2 Hnd HF) as Hany.
    destruct (negb update && any_true (mask_and (merge_mask (lx z1)) (merge_mask (lx z2)))) eqn:Hov; [done|]. split.
    { destruct update; [by left|]. right. intros ls Hls. simpl in Hov. rewrite (proj2 Hover) in Hov; [done|]. eauto. }
    destruct (any_true (merge_mask (lx z2))) eqn:Ha.
    + right. apply bind_ok in H as (x & Hx & _). unfold putmask_arr in Hx. destruct (safe_cast _ _) eqn:Hs in Hx; [|done].
      apply joined_fits; [done|]. by rewrite <-Hd1, <-Hd2.
    + left. intros ls. destruct (solid_at y2 ls) eqn:E; [|done]. assert (false = true); [|done]. apply Hany. exists ls. by rewrite E.
  - intros (Hnd & Hs & Hk & Hno & Hfit). rewrite decide_False by tauto.
    destruct (merge_align_ex y1 y2) as (z1 & z2 & HF); [done..|]. rewrite HF. cbn [mbind res_bind].
    destruct (merge_align_dtype _ _ _ _ Hv1 Hv2 Hnd HF) as (Hd1 & Hd2 & _).
    pose proof (solid_overlap _ _ _ _ Hv1 Hv2 Hnd HF) as Hover. pose proof (any_solid _ _ _ _ Hv1 Hv2 Hnd HF) as Hany.
    pose proof (merge_align_spec _ _ _ _ Hv1 Hv2 Hnd HF) as (Hr1 & Hr2 & _).
    rewrite decide_True by (by apply mergeable_spec).
    destruct (negb update && any_true (mask_and (merge_mask (lx z1)) (merge_mask (lx z2)))) eqn:Hov.
    { apply andb_true_iff in Hov as [Hu Ho]. apply Hover in Ho as [ls Hls]. destruct Hno as [-> |Hno]; [done|]. by destruct (Hno ls). }
    destruct (any_true (merge_mask (lx z2))) eqn:Ha; [|by eexists].
    destruct Hfit as [Hnone|Hfit].
    { destruct (proj1 Hany eq_refl) as (ls & v & Hv). by rewrite Hnone in Hv. }
    destruct (putmask_ex z1 z2) as [x ->]; [by destruct Hr2| |by eexists].
    rewrite Hd1, Hd2. by apply joined_fits.
Qed.
Lemma merge_clash y1 y2 :
  valid y1 -> valid y2 -> lndim y1 = lndim y2 ->
  (forall i l1 l2, llabel y1 !! i = Some l1 -> llabel y2 !! i = Some l2 -> l1 = l2 \/ all_comparable (l1 ++ l2)) ->
  mergeable (ldtype y1) (ldtype y2) ->
  (exists ls, is_Some (solid_at y1 ls) /\ is_Some (solid_at y2 ls)) ->
  larry_merge y1 y2 false = Err ValueError.
Proof.
  intros Hv1 Hv2 Hnd Hs Hk Hls. unfold larry_merge. rewrite decide_False by tauto.
  destruct (merge_align_ex y1 y2) as (z1 & z2 & HF); [done..|]. rewrite HF. cbn [mbind res_bind].
  pose proof (solid_overlap _ _ _ _ Hv1 Hv2 Hnd HF) as Hover.
  rewrite decide_True by (by apply mergeable_spec). by rewrite (proj2 Hover Hls).
Qed.
