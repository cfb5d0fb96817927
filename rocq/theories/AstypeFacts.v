(** Facts about the conversion of dtypes. *)
From Verif Require Export Astype FarrayFacts ReduceFacts.

Lemma Qc_of_Z_zero : Qc_of_Z 0 = 0%Qc.
Proof. by apply Qc_is_canon. Qed.
Lemma Z_le_Qc z (q : Qc) : (Qc_of_Z z <= q)%Qc <-> (z * Zpos (Qden (this q)) <= Qnum (this q))%Z.
Proof. unfold Qcle, Qle. change (this (Qc_of_Z z)) with (inject_Z z). cbn [inject_Z Qnum Qden]. by rewrite Z.mul_1_r. Qed.
Lemma Qc_le_Z z (q : Qc) : (q <= Qc_of_Z z)%Qc <-> (Qnum (this q) <= z * Zpos (Qden (this q)))%Z.
Proof. unfold Qcle, Qle. change (this (Qc_of_Z z)) with (inject_Z z). cbn [inject_Z Qnum Qden]. by rewrite Z.mul_1_r. Qed.
Lemma Z_lt_Qc z (q : Qc) : (Qc_of_Z z < q)%Qc <-> (z * Zpos (Qden (this q)) < Qnum (this q))%Z.
Proof. unfold Qclt, Qlt. change (this (Qc_of_Z z)) with (inject_Z z). cbn [inject_Z Qnum Qden]. by rewrite Z.mul_1_r. Qed.
Lemma Qc_lt_Z z (q : Qc) : (q < Qc_of_Z z)%Qc <-> (Qnum (this q) < z * Zpos (Qden (this q)))%Z.
Proof. unfold Qclt, Qlt. change (this (Qc_of_Z z)) with (inject_Z z). cbn [inject_Z Qnum Qden]. by rewrite Z.mul_1_r. Qed.
Lemma truncated_iff q z : truncated q z <->
  let n := Qnum (this q) in let d := Zpos (Qden (this q)) in
  ((0 <= n)%Z -> (z * d <= n)%Z /\ (n < (z + 1) * d)%Z) /\ ((n <= 0)%Z -> ((z - 1) * d < n)%Z /\ (n <= z * d)%Z).
Proof.
  unfold truncated. rewrite Z_le_Qc, Qc_lt_Z, Z_lt_Qc, Qc_le_Z.
  pose proof (Z_le_Qc 0 q) as H1. pose proof (Qc_le_Z 0 q) as H2. rewrite Qc_of_Z_zero in H1, H2. rewrite H1, H2. cbv zeta. lia.
Qed.
Lemma trunc_spec q : truncated q (Qc_trunc q).
Proof.
  apply truncated_iff. unfold Qc_trunc. set (n := Qnum (this q)). set (d := Zpos (Qden (this q))). cbv zeta.
  assert (Hd : (0 < d)%Z) by done. clearbody n d.
  pose proof (Z.quot_rem n d ltac:(lia)) as E. split; intros H.
  - pose proof (Z.rem_bound_pos n d H Hd). nia.
  - pose proof (Z.rem_bound_pos (- n) d ltac:(lia) Hd) as Hr. rewrite Z.rem_opp_l in Hr by lia. nia.
Qed.
Lemma truncated_fun q z z' : truncated q z -> truncated q z' -> z = z'.
Proof.
  rewrite !truncated_iff. set (n := Qnum (this q)). set (d := Zpos (Qden (this q))). cbv zeta.
  assert (Hd : (0 < d)%Z) by done. clearbody n d. intros [H1 H2] [H1' H2'].
  destruct (Z.le_ge_cases 0 n) as [H|H]; [specialize (H1 H); specialize (H1' H)|specialize (H2 H); specialize (H2' H)]; nia.
Qed.
Lemma truncated_Z z : truncated (Qc_of_Z z) z.
Proof. apply truncated_iff. change (this (Qc_of_Z z)) with (inject_Z z). cbn [inject_Z Qnum Qden]. cbv zeta. lia. Qed.
Lemma trunc_Z z : Qc_trunc (Qc_of_Z z) = z.
Proof. apply (truncated_fun (Qc_of_Z z)); [apply trunc_spec|apply truncated_Z]. Qed.

Lemma truth_num v n : to_num v = Some n -> (val_truth v = false <-> n = num_of_Z 0).
Proof.
  destruct v as [m|z|b| | |]; intros H; try done; injection H as <-; cbn [val_truth].
  - rewrite negb_false_iff, bool_decide_eq_true. unfold num_of_Z. by rewrite Qc_of_Z_zero.
  - rewrite negb_false_iff, bool_decide_eq_true. split; [by intros ->|]. intros H. apply num_of_Z_inj in H. done.
  - split; [by intros ->|]. destruct b; [|done]. intros H. apply num_of_Z_inj in H. done.
Qed.

(** ** Cell by cell *)
Lemma astype_cells y z dt : valid y -> larry_astype y dt = Ok z ->
  (forall v u, has_dtype (ldtype y) v = true -> cast (ldtype y) dt v = Ok u -> has_dtype dt u = true) ->
  valid z /\ ldtype z = dt /\ llabel z = llabel y /\
  forall ls, in_grid (llabel y) ls -> exists v u, cell y ls = Some v /\ cell z ls = Some u /\ cast (ldtype y) dt v = Ok u.
Proof.
  intros Hv H Ht. unfold larry_astype, np_astype in H. apply bind_ok in H as (x & H & [= <-]).
  apply bind_ok in H as (vs & H & [= <-]). apply mapR_ok in H. change (data (nd_arr (lx y))) with (data (larr y)) in H.
  change (nd_dtype (lx y)) with (ldtype y) in H. change (nd_shape (lx y)) with (lshape y).
  set (z := Larry _ _). assert (Hz : valid z).
  { destruct Hv as (H1 & H2 & H3 & H4). split_and!; try done. destruct H1 as [Hw Hty]. split.
    - unfold arr_wf in *. cbn. rewrite <-(Forall2_length _ _ _ H). apply Hw.
    - cbn. clear -H Hty Ht. unfold ldtype, larr in *. revert Hty. induction H as [|v u ? ? Hc]; [constructor|].
      intros [? ?]%Forall_cons. constructor; [by eapply Ht|auto]. }
  split_and!; [done..|]. intros ls Hg. pose proof (data_grid y Hv) as Hy. pose proof (data_grid z Hz) as Hz'.
  apply elem_of_grid in Hg. apply elem_of_list_lookup in Hg as [i Hi].
  destruct (Forall2_lookup_l _ _ _ _ _ Hy Hi) as (v & Hvi & Hc). destruct (Forall2_lookup_l _ _ _ _ _ Hz' Hi) as (u & Hui & Hc').
  exists v, u. split_and!; [done..|]. eapply Forall2_lookup_lr in H; [|exact Hvi|exact Hui]. done.
Qed.
Lemma cast_typed dt dt' v u : has_dtype dt v = true -> cast dt dt' v = Ok u -> has_dtype dt' u = true.
Proof.
  unfold cast. intros Hv. destruct (decide (dt = dt')) as [<- |Hne]; [by intros [= <-]|].
  destruct dt, v; try done; destruct dt'; try done; try (by intros [= <-]). all: by destruct n; intros [= <-].
Qed.
Lemma cast_converted dt dt' v u :
  dt = DFloat \/ dt = DInt \/ dt = DBool -> has_dtype dt v = true -> cast dt dt' v = Ok u -> converted dt' v u.
Proof.
  intros Hdt Hv H. assert (exists n, to_num v = Some n) as [n Hn].
  { destruct Hdt as [-> |[-> | ->]], v; try done; simpl; eauto. }
  exists n. split; [done|]. unfold cast in H. destruct (decide (dt = dt')) as [<- |Hne].
  - injection H as <-. destruct Hdt as [-> |[-> | ->]], v; try done; injection Hn as <-.
    + done.
    + exists (Qc_of_Z z), z. split_and!; [done|apply truncated_Z|done].
    + eexists. split; [done|]. exact (truth_num (VBool b) _ eq_refl).
  - destruct Hdt as [-> |[-> | ->]], v; try done; injection Hn as <-; destruct dt'; try done; try (injection H as <-).
    all: try done; try (eexists; split; [done|]; match goal with |- negb (bool_decide (?n = Fin _)) = _ <-> _ => exact (truth_num (VFloat n) _ eq_refl) | |- negb (bool_decide (?z = _)) = _ <-> _ => exact (truth_num (VInt z) _ eq_refl) | _ => exact (truth_num (VBool _) _ eq_refl) end).
    + destruct n0; try done. injection H as <-. by exists q, (Qc_trunc q); split_and!; [|apply trunc_spec|].
    + eexists _, _. split_and!; [done|apply truncated_Z|done].
Qed.
Lemma number_cases y : number_larry y -> ldtype y = DFloat \/ ldtype y = DInt \/ ldtype y = DBool.
Proof. done. Qed.
Theorem astype_sound y dt z : valid y -> number_larry y -> larry_astype y dt = Ok z -> in_dtype dt y z.
Proof.
  intros Hv Hn H. destruct (astype_cells y z dt Hv H) as (H1 & H2 & H3 & H4). { intros v u. apply cast_typed. }
  split_and!; [done..|]. intros ls Hg. destruct (H4 ls Hg) as (v & u & Hc & Hc' & Hcast). exists v, u. split_and!; [done..|].
  eapply cast_converted; [exact Hn| |exact Hcast]. by eapply valid_cell_typed.
Qed.
Lemma in_data_cell y v : valid y -> v ∈ data (larr y) -> exists ls, in_grid (llabel y) ls /\ cell y ls = Some v.
Proof.
  intros Hv H. apply elem_of_list_lookup in H as [i Hi]. pose proof (data_grid y Hv) as Hy.
  destruct (Forall2_lookup_r _ _ _ _ _ Hy Hi) as (ls & Hls & Hc). exists ls. split; [|done].
  apply elem_of_grid. by eapply elem_of_list_lookup_2.
Qed.
Lemma valid_data_typed y : valid y -> Forall (fun v => has_dtype (ldtype y) v = true) (data (larr y)).
Proof. intros (H & _). apply H. Qed.
Lemma mapR_all_ok {X Y} (f : X -> res Y) l : Forall (fun x => exists y, f x = Ok y) l -> exists ys, mapR f l = Ok ys.
Proof.
  induction 1 as [|x l [y Hy] _ [ys IH]]; [by exists []|]. exists (y :: ys). cbn [mapR]. rewrite Hy. cbn [mbind res_bind]. by rewrite IH.
Qed.
Theorem astype_total y dt :
  valid y -> number_larry y -> dt <> DStr -> (dt = DInt -> all_finite y) -> exists z, larry_astype y dt = Ok z /\ in_dtype dt y z.
Proof.
  intros Hv Hn Hs Hf. assert (exists z, larry_astype y dt = Ok z) as [z Hz]; [|exists z; split; [done|by apply astype_sound]].
  unfold larry_astype, np_astype. change (nd_dtype (lx y)) with (ldtype y). change (data (nd_arr (lx y))) with (data (larr y)).
  destruct (mapR_all_ok (cast (ldtype y) dt) (data (larr y))) as [vs ->]; [|cbn [mbind res_bind]; eauto].
  apply Forall_forall. intros v Hin. pose proof (valid_data_typed y Hv) as Hty. rewrite Forall_forall in Hty. specialize (Hty v Hin).
  unfold cast. destruct (decide _) as [|Hne]; [eauto|].
  destruct Hn as [E|[E|E]]; rewrite E in *; destruct v; try done; destruct dt; try done; eauto.
  destruct (in_data_cell y _ Hv Hin) as (ls & Hg & Hc). destruct (Hf eq_refl ls Hg) as (v & Hc' & q & Hq).
  rewrite Hc in Hc'. injection Hc' as <-. injection Hq as ->. eauto.
Qed.
Lemma mapR_id {X} (f : X -> res X) l : Forall (fun x => f x = Ok x) l -> mapR f l = Ok l.
Proof. induction 1 as [|x l Hx _ IH]; [done|]. cbn [mapR]. rewrite Hx. cbn [mbind res_bind]. by rewrite IH. Qed.
Theorem astype_same y : larry_astype y (ldtype y) = Ok y.
Proof.
  unfold larry_astype, np_astype. change (nd_dtype (lx y)) with (ldtype y).
  rewrite (mapR_id (cast (ldtype y) (ldtype y))).
  - cbn [mbind res_bind]. by destruct y as [[dt [sh d]] L].
  - apply Forall_true. intros v. unfold cast. by rewrite decide_True.
Qed.
Theorem astype_object y : exists z, larry_astype y DObj = Ok z /\ ldtype z = DObj /\ larr z = larr y /\ llabel z = llabel y.
Proof.
  unfold larry_astype, np_astype. rewrite (mapR_id (cast _ DObj)).
  - cbn [mbind res_bind]. eexists. split; [done|]. by destruct y as [[dt [sh d]] L].
  - apply Forall_true. intros v. unfold cast. destruct (decide _); [done|]. by destruct (nd_dtype (lx y)).
Qed.

(** ** There and back *)
Lemma astype_back y dt :
  (z ← larry_astype y dt; larry_astype z (ldtype y)) = Ok y <->
  Forall (fun v => (u ← cast (ldtype y) dt v; cast dt (ldtype y) u) = Ok v) (data (larr y)).
Proof.
  unfold larry_astype, np_astype. change (nd_dtype (lx y)) with (ldtype y). change (data (nd_arr (lx y))) with (data (larr y)). split.
  - intros H. apply bind_ok in H as (z & Hz & H). apply bind_ok in Hz as (x & Hz & [= <-]).
    apply bind_ok in Hz as (vs & Hz & [= <-]). apply bind_ok in H as (x & H & Hx). injection Hx as Hx.
    apply bind_ok in H as (us & H & [= <-]). cbn [lx nd_dtype nd_arr data] in H.
    assert (us = data (larr y)) as -> by (by rewrite <-Hx). apply mapR_ok in Hz, H. clear Hx.
    revert vs Hz H. generalize (data (larr y)). intros l. induction l as [|v l IH]; intros vs H1 H2; [constructor|].
    apply Forall2_cons_inv_l in H1 as (u & us & Hu & H1 & ->). apply Forall2_cons in H2 as [Hw H2].
    constructor; [|by eapply IH]. by rewrite Hu.
  - intros H. assert (exists vs, mapR (cast (ldtype y) dt) (data (larr y)) = Ok vs /\ mapR (cast dt (ldtype y)) vs = Ok (data (larr y))) as (vs & -> & H2).
    { induction H as [|v l Hv _ (vs & IH1 & IH2)]; [by exists []|]. apply bind_ok in Hv as (u & Hu & Hv). exists (u :: vs).
      cbn [mapR]. rewrite Hu, Hv. cbn [mbind res_bind]. by rewrite IH1, IH2. }
    cbn [mbind res_bind lx nd_dtype nd_arr data]. rewrite H2. cbn [mbind res_bind]. by destruct y as [[d [sh dd]] L].
Qed.
Theorem astype_int_float y : valid y -> ldtype y = DInt -> (z ← larry_astype y DFloat; larry_astype z DInt) = Ok y.
Proof.
  intros Hv Hd. pose proof (astype_back y DFloat) as Hb. rewrite Hd in Hb. apply Hb. eapply Forall_impl; [by apply valid_data_typed|].
  intros v Ht. rewrite Hd in *. destruct v; try done. change (Ok (VInt (Qc_trunc (Qc_of_Z z))) = Ok (VInt z)). by rewrite trunc_Z.
Qed.
Theorem astype_bool_back y dt : valid y -> ldtype y = DBool -> dt = DInt \/ dt = DFloat ->
  (z ← larry_astype y dt; larry_astype z DBool) = Ok y.
Proof.
  intros Hv Hd Hdt. pose proof (astype_back y dt) as Hb. rewrite Hd in Hb. apply Hb. eapply Forall_impl; [by apply valid_data_typed|].
  intros v Ht. rewrite Hd in *. destruct v as [| |b| | |]; try done. by destruct Hdt as [-> | ->], b; vm_compute.
Qed.
Theorem astype_float_int y : valid y -> ldtype y = DFloat ->
  ((z ← larry_astype y DInt; larry_astype z DFloat) = Ok y <-> all_whole y).
Proof.
  intros Hv Hd. pose proof (astype_back y DInt) as Hb. rewrite Hd in Hb. rewrite Hb. split.
  - intros H ls v Hg Hc. assert (Hin : v ∈ data (larr y)).
    { pose proof (data_grid y Hv) as Hy. apply elem_of_grid in Hg. apply elem_of_list_lookup in Hg as [i Hi].
      destruct (Forall2_lookup_l _ _ _ _ _ Hy Hi) as (u & Hu & Hcu). assert (u = v) as -> by congruence. by eapply elem_of_list_lookup_2. }
    rewrite Forall_forall in H. specialize (H v Hin). pose proof (valid_data_typed y Hv) as Ht. rewrite Forall_forall, Hd in Ht.
    specialize (Ht v Hin). destruct v as [[q| | |]| | | | |]; try done. exists (Qc_trunc q).
    change (Ok (VFloat (num_of_Z (Qc_trunc q))) = Ok (VFloat (Fin q))) in H. injection H as H. unfold num_of_Z. cbn [to_num]. by rewrite H.
  - intros H. apply Forall_forall. intros v Hin. destruct (in_data_cell y v Hv Hin) as (ls & Hg & Hc).
    destruct (H ls v Hg Hc) as [z Hz]. pose proof (valid_data_typed y Hv) as Ht. rewrite Forall_forall, Hd in Ht.
    specialize (Ht v Hin). destruct v; try done. injection Hz as ->.
    change (Ok (VFloat (num_of_Z (Qc_trunc (Qc_of_Z z)))) = Ok (VFloat (num_of_Z z))). by rewrite trunc_Z.
Qed.
(** Bools as floats, directly or by way of ints. *)
Theorem astype_bool_float y : valid y -> ldtype y = DBool ->
  (z ← larry_astype y DInt; larry_astype z DFloat) = larry_astype y DFloat.
Proof.
  intros Hv Hd. unfold larry_astype, np_astype. change (nd_dtype (lx y)) with (ldtype y). rewrite Hd.
  pose proof (valid_data_typed y Hv) as Ht. rewrite Hd in Ht. change (nd_arr (lx y)) with (larr y).
  assert (exists vs us, mapR (cast DBool DInt) (data (larr y)) = Ok vs /\ mapR (cast DInt DFloat) vs = Ok us /\ mapR (cast DBool DFloat) (data (larr y)) = Ok us)
    as (vs & us & -> & H2 & ->).
  { induction Ht as [|v l Hv' _ (vs & us & IH1 & IH2 & IH3)]; [by exists [], []|]. destruct v; try done.
    eexists (_ :: vs), (_ :: us). cbn [mapR]. split_and!; [cbn; by rewrite IH1| |cbn; by rewrite IH3]. cbn. by rewrite IH2. }
  cbn [mbind res_bind lx nd_dtype nd_arr data]. by rewrite H2.
Qed.

(** ** The constructor *)
Theorem make_dtype_ok x label dt y : make x label = Ok y -> make_dtype x label (Some dt) = larry_astype y dt.
Proof.
  unfold make_dtype, larry_astype, make. intros H. destruct (decide (nd_ndim x <> _)) as [|H1]; [done|].
  destruct (decide (nd_ndim x = 0)) as [|H2]; [done|]. apply bind_ok in H as (u & Hu & [= <-]). cbn [lx llabel].
  unfold np_astype. destruct (mapR _ _) as [vs|e]; [|done]. cbn [mbind res_bind].
  change (nd_shape (Nda dt (Arr (nd_shape x) vs))) with (nd_shape x).
  change (nd_ndim (Nda dt (Arr (nd_shape x) vs))) with (nd_ndim x).
  rewrite decide_False by done. rewrite decide_False by done. by rewrite Hu.
Qed.
Theorem make_dtype_err x label dt e y : make x label = Err e -> make_dtype x label (Some dt) <> Ok y.
Proof.
  unfold make_dtype, make. intros H H'. apply bind_ok in H' as (x' & Hx & H'). unfold np_astype in Hx. apply bind_ok in Hx as (vs & _ & [= <-]).
  change (nd_shape (Nda dt (Arr (nd_shape x) vs))) with (nd_shape x) in H'.
  change (nd_ndim (Nda dt (Arr (nd_shape x) vs))) with (nd_ndim x) in H'.
  destruct (decide (nd_ndim x <> _)); [done|]. destruct (decide (nd_ndim x = 0)); [done|]. by destruct (check_axes _ _).
Qed.
