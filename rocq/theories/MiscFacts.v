(** Facts about keep_x, decayed ranking, geometric mean, correlation and the
    elementwise functions. *)
From Verif Require Import Misc RankLarry CutFacts CovFacts OpsMore ReduceFacts.

(** * keep_x *)

Lemma blank_spec y z0 :
  valid y -> ldtype y = DFloat -> valid z0 -> llabel z0 = llabel y -> ldtype z0 = DBool ->
  exists x, blank (lx y) (lx z0) = Ok x /\ let z := Larry x (llabel y) in
    valid z /\ ldtype z = DFloat /\
    forall ls v b, cell y ls = Some v -> cell z0 ls = Some (VBool b) -> cell z ls = Some (if b then v else VFloat NaN).
Proof.
  intros Hy Hd Hz Hl Hdz. unfold blank, putmask_scalar. change (nd_dtype (lx y)) with (ldtype y). rewrite Hd. simpl.
  eexists. split; [done|]. simpl.
  assert (Hs : shape (larr z0) = shape (larr y)).
  { change (lshape z0 = lshape y). rewrite <-!valid_shape by done. by rewrite Hl. }
  assert (Hwz : arr_wf (larr z0)) by apply Hz. assert (Hwy : arr_wf (larr y)) by apply Hy.
  change (nd_arr (lx y)) with (larr y). change (nd_arr (lx z0)) with (larr z0).
  set (m := amap _ (larr z0)). assert (Hwm : arr_wf m) by (by apply amap_wf).
  assert (Hsm : shape m = shape (larr y)) by done.
  assert (Hg : forall idx, aget (azip (fun (b : bool) u => if b then VFloat NaN else u) m (larr y)) idx =
     (x ← aget m idx; y ← aget (larr y) idx; Some (if x : bool then VFloat NaN else y))).
  { intros idx. by apply get_azip. }
  split_and!.
  - destruct Hy as ([_ Ht] & Hne & Hsh & Hnd). repeat split; simpl; try done.
    + by apply azip_wf.
    + change (Forall (fun v => has_dtype DFloat v = true) (zip_with (fun (b : bool) u => if b then VFloat NaN else u) (data m) (data (larr y)))).
      change (nd_dtype (lx y)) with (ldtype y) in Ht. rewrite Hd in Ht. apply Forall_lookup. intros i v Hv.
      apply lookup_zip_with_Some in Hv as (b & u & -> & _ & Hu). destruct b; [done|]. by eapply Forall_lookup_1 in Ht.
    + simpl. rewrite Hsh. done.
  - done.
  - intros ls v b Hv Hb. unfold cell in *. simpl. rewrite Hl in Hb. destruct (locate (llabel y) ls) as [idx|]; [|done].
    simpl in *. rewrite Hg. unfold m. rewrite get_amap. change (nd_arr (lx y)) with (larr y).
    rewrite Hb, Hv. simpl. by destruct b.
Qed.
Lemma compare_np op y v z0 : larry_compare op y (OpScalar v) = Ok (OLar z0) ->
  exists a, scalar_nda v = Ok a /\ np_compare op (lx y) a = Ok (inl (lx z0)).
Proof.
  unfold larry_compare. intros H. apply bind_ok in H as (a & Ha & H). exists a. split; [done|].
  apply bind_ok in H as ([x|b] & Hx & H); simplify_eq. done.
Qed.
Theorem keep_x_plain y op value :
  valid y -> ldtype y = DFloat -> is_Some (to_num value) ->
  exists z, keep_x y (Some op) value false = Ok z /\ kept_cells op value y z.
Proof.
  intros Hy Hd Hn. destruct (compare_scalar op y value Hy) as (z0 & Hz0 & Hv0 & Hl0 & Hd0 & Hc0).
  { left. split; [|done]. unfold arithmetic. tauto. }
  apply compare_np in Hz0 as (a & Ha & Hcmp). unfold keep_x. simpl. rewrite Ha. simpl. rewrite Hcmp. simpl. rewrite Hd.
  destruct (blank_spec y z0 Hy Hd Hv0 Hl0 Hd0) as (x & -> & Hv & Hdz & Hc). simpl.
  eexists. split; [done|]. split_and!; [done|by rewrite Hd|done|].
  intros ls v Hcell. destruct (Hc0 ls v Hcell) as (b & Hb & Hiff). specialize (Hc ls v b Hcell Hb). rewrite Hc.
  destruct b; split; intros H; try done; naive_solver.
Qed.
Theorem keep_x_vacuum y op value :
  valid y -> ldtype y = DFloat -> is_Some (to_num value) -> lndim y = 2 ->
  exists x z, keep_x y (Some op) value true = Ok z /\ kept_cells op value y x /\
    cut_down (slice_finite x) (fun _ => True) x z.
Proof.
  intros Hy Hd Hn Hnd. destruct (keep_x_plain y op value Hy Hd Hn) as (x & Hx & Hk).
  assert (Hdx : ldtype x = DFloat) by (destruct Hk as (_ & -> & _); done).
  destruct (vacuum_cut x AxNone) as (z & Hz & Hcut); [apply Hk|unfold arithmetic; tauto|].
  exists x, z. split_and!; [|done|exact Hcut]. revert Hx. unfold keep_x. rewrite bool_decide_true by done. simpl.
  destruct (scalar_nda value); [|done]. simpl. destruct (np_compare _ _ _) as [[]|]; simpl; [|by destruct (ldtype y)|done].
  rewrite Hd. destruct (blank _ _); [|done]. simpl. by intros [= ->].
Qed.
Theorem keep_x_error y op value :
  (lndim y <> 2 -> keep_x y op value true = Err ValueError) /\ keep_x y None value false = Err ValueError.
Proof. split; [|done]. intros H. unfold keep_x. by rewrite bool_decide_false. Qed.

(** * Reductions of numeric larrys *)

Lemma reduce_nums_spec (R : list num -> num -> Prop) f e y axis :
  (forall ns, ns <> [] -> R ns (f ns)) ->
  valid y -> numeric_larry y -> nonempty y -> axis_ok y axis ->
  exists o, reduce_nums f e y axis = Ok o /\
    reduction_by (fun vs v => exists ns m, numbers vs ns /\ v = VFloat m /\ R ns m) y axis o.
Proof.
  intros HR Hv Hn Hne Hax. unfold reduce_nums. rewrite decide_False by (by apply size_nonempty).
  rewrite check_numeric_ok by done. cbn [mbind res_bind].
  assert (HR' : forall vs, vs <> [] -> Forall (fun v => has_dtype (ldtype y) v = true) vs ->
    exists ns m, numbers vs ns /\ VFloat (f (omap to_num vs)) = VFloat m /\ R ns m).
  { intros vs Hne' Ht. pose proof (omap_num_length y vs Hn Ht) as Hns.
    eexists _, _. split_and!; [exact Hns|done|]. apply HR. intros E. rewrite E in Hns. by inversion Hns; subst. }
  destruct axis as [a|].
  - destruct Hax as [ax Hax]. assert (Hlt : ax < lndim y) by (rewrite <-valid_ndim by done; apply Hax).
    rewrite (proj1 (axis_is_py y a ax Hv) Hax). cbn [of_opt mbind res_bind].
    destruct (reduce_out y ax DFloat (fun l => VFloat (f (omap to_num l))) Hv Hlt Hne) as (b & Hb & Hcases); [done|].
    rewrite Hb. cbn [of_opt mbind res_bind].
    destruct Hcases as [(H1 & vs & Hvs & Hne' & Ho)|(H1 & z & -> & Ho & Hvz & Hc)]; rewrite Ho; eexists; (split; [done|]); exists ax; (split; [done|]).
    + split; [|lia]. intros _. eexists vs, _. split_and!; [done..|]. apply HR'; [done|]. by eapply lane_of_typed.
    + split; [lia|]. intros _. eexists. split_and!; [done..|]. intros ls Hls. destruct (Hc ls Hls) as (vs & Hne' & Hvs & Hcell).
      eexists vs, _. split_and!; [done..|]. apply HR'; [done|]. by eapply lane_of_typed.
  - eexists. split; [done|]. eexists _, _. split_and!; [done|by apply data_values|].
    apply HR'; [by apply nonempty_data|by apply valid_typed].
Qed.

(** * geometric_mean *)

Lemma num_mul_div_1 m n : m <> 0 -> num_mul (num_div (num_of_Z 1) (num_of_nat m)) n = num_div n (num_of_nat m).
Proof.
  intros Hm. assert (Hp : (0 < Qc_of_Z (Z.of_nat m))%Qc) by (apply Qc_of_nat_pos; lia).
  assert (H0 : Qc_of_Z (Z.of_nat m) <> 0%Qc) by (intros E; rewrite E in Hp; by apply Qclt_not_eq in Hp).
  unfold num_of_nat, num_of_Z. cbn [num_div]. rewrite decide_False by done.
  assert (Hi : (0 < Qc_of_Z 1 / Qc_of_Z (Z.of_nat m))%Qc).
  { apply Qcnot_le_lt. intros Hle. apply (Qcmult_le_compat_r _ _ (Qc_of_Z (Z.of_nat m))) in Hle; [|by apply Qclt_le_weak].
    rewrite Qcmult_0_l in Hle. unfold Qcdiv in Hle. rewrite <-Qcmult_assoc, (Qcmult_comm (/ _)), Qcmult_inv_r, Qcmult_1_r in Hle by done.
    by apply Hle. }
  destruct n; cbn [num_mul num_div].
  - rewrite decide_False by done. f_equal. replace (Qc_of_Z 1) with 1%Qc by (by apply Qc_is_canon). field. done.
  - done.
  - rewrite inf_sign_pos by done. assert (Qc_ltb (Qc_of_Z (Z.of_nat m)) 0 = false) as ->; [|done].
    apply Qc_ltb_ge. by apply Qclt_le_weak.
  - rewrite inf_sign_pos by done. assert (Qc_ltb (Qc_of_Z (Z.of_nat m)) 0 = false) as ->; [|done].
    apply Qc_ltb_ge. by apply Qclt_le_weak.
Qed.
Lemma geometric_lane_spec log exp ns :
  log (num_of_Z 1) = num_of_Z 0 -> geometric log exp ns (geometric_lane log exp ns).
Proof.
  intros Hlog. unfold geometric, geometric_lane.
  assert (Hf : filter (fun n => is_nan n = false) ns = present ns).
  { apply list_filter_iff. intros n. by destruct n. }
  rewrite Hf. assert (Hs : fold_left num_add (log <$> ((fun n => if is_nan n then num_of_Z 1 else n) <$> ns)) (num_of_Z 0) = num_total (log <$> present ns)).
  { rewrite fold_total, num_add_0_l. clear Hf. induction ns as [|n ns IH]; [done|]. unfold present in *. rewrite filter_cons.
    cbn [fmap list_fmap num_total foldr]. destruct (decide (n <> NaN)) as [Hn|Hn].
    - cbn [fmap list_fmap num_total foldr]. f_equal; [by destruct n|exact IH].
    - apply dec_stable in Hn as ->. cbn [is_nan]. rewrite Hlog. unfold num_total in IH. rewrite IH. apply num_add_0_l. }
  rewrite Hs. case_decide as Hp.
  - rewrite Hp. cbn [length]. change (num_of_nat 0) with (num_of_Z 0). rewrite (proj2 (num_eqb_same _ _)) by (split; done).
    by destruct (exp _).
  - assert (Hl : length (present ns) <> 0) by (by destruct (present ns)).
    destruct (num_eqb _ _) eqn:E.
    { apply num_eqb_same in E as [E _]. apply num_of_Z_inj in E. lia. }
    rewrite num_mul_1_r, num_mul_div_1 by done. unfold mean_of. by rewrite fmap_length.
Qed.
Theorem geometric_mean_total log exp y axis check :
  log (num_of_Z 1) = num_of_Z 0 ->
  valid y -> numeric_larry y -> nonempty y -> axis_ok y axis ->
  (check = true -> forall ls v n, cell y ls = Some v -> to_num v = Some n -> n = NaN \/ num_lt (num_of_Z 0) n) ->
  exists o, larry_geometric_mean log exp y axis check = Ok o /\
    reduction_by (fun vs v => exists ns m, numbers vs ns /\ v = VFloat m /\ geometric log exp ns m) y axis o.
Proof.
  intros Hlog Hv Hn Hne Hax Hc. unfold larry_geometric_mean. rewrite decide_False by (by apply size_nonempty).
  rewrite check_numeric_ok by done. cbn [mbind res_bind].
  assert (check && existsb (fun n => num_leb n (num_of_Z 0)) (omap to_num (data (larr y))) = false) as ->.
  { destruct check; [|done]. simpl. apply not_true_is_false. intros H. apply existsb_exists in H as (n & Hin & Hle).
    apply elem_of_list_In, elem_of_list_omap in Hin as (v & Hin & Hvn).
    destruct (data_values y Hv) as (ts & _ & _ & Hts). apply elem_of_list_lookup in Hin as (i & Hi).
    eapply Forall2_lookup_r in Hts as (ls & _ & Hcell); [|exact Hi]. apply num_leb_le in Hle.
    destruct (Hc eq_refl ls v n Hcell Hvn) as [-> |Hlt].
    - by apply num_le_nan in Hle as [? _].
    - by apply num_lt_not_le in Hlt. }
  apply reduce_nums_spec; [|done..]. intros ns _. by apply geometric_lane_spec.
Qed.
Theorem geometric_mean_error log exp y axis ls v n :
  valid y -> numeric_larry y -> cell y ls = Some v -> to_num v = Some n -> num_le n (num_of_Z 0) ->
  larry_geometric_mean log exp y axis true = Err ValueError.
Proof.
  intros Hv Hn Hc Hvn Hle. unfold larry_geometric_mean.
  destruct (data_values y Hv) as (ts & _ & Hgrid & Hts). assert (Hin : ls ∈ ts).
  { apply Hgrid, valid_cell_grid; [done|eauto]. }
  apply elem_of_list_lookup in Hin as (i & Hi). eapply Forall2_lookup_l in Hts as (v' & Hv' & Hc'); [|exact Hi].
  assert (v' = v) as -> by congruence.
  assert (v ∈ data (larr y)) as Hin by (by eapply elem_of_list_lookup_2).
  rewrite decide_False.
  2:{ unfold lsize, nd_size. intros E. assert (length (data (larr y)) = 0) as E'.
      { destruct Hv as ([Hwf _] & _). rewrite Hwf. exact E. }
      destruct (data (larr y)); [by apply elem_of_nil in Hin|done]. }
  rewrite check_numeric_ok by done. cbn [mbind res_bind].
  assert (existsb (fun n => num_leb n (num_of_Z 0)) (omap to_num (data (larr y))) = true) as ->; [|done].
  apply existsb_exists. exists n. split; [|by apply num_leb_le]. apply elem_of_list_In, elem_of_list_omap. eauto.
Qed.

(** * Elementwise functions *)

Theorem ufunc_total f y :
  valid y -> arithmetic (ldtype y) ->
  exists z, larry_ufunc f y = Ok z /\ valid z /\ llabel z = llabel y /\ ldtype z = DFloat /\
  forall ls v, cell y ls = Some v -> exists n, to_num v = Some n /\ cell z ls = Some (VFloat (f n)).
Proof.
  intros Hy Ha. unfold larry_ufunc.
  destruct (map_valid y DFloat (fun v => match to_num v with Some n => VFloat (f n) | None => v end) Hy) as [Hv Hc].
  { intros v Ht. destruct Ha as [E|[E|E]]; rewrite E in Ht; by destruct v. }
  assert (Hcell : forall ls v, cell y ls = Some v -> exists n, to_num v = Some n /\
    cell (Larry (Nda DFloat (amap (fun v => match to_num v with Some n => VFloat (f n) | None => v end) (larr y))) (llabel y)) ls = Some (VFloat (f n))).
  { intros ls v Hcell. rewrite Hc, Hcell. apply (valid_cell_typed _ _ _ Hy) in Hcell.
    destruct Ha as [E|[E|E]]; rewrite E in Hcell; destruct v; try done; simpl; eauto. }
  destruct Ha as [->|[->| ->]]; eexists; split_and!; done.
Qed.
Theorem power_int_total pow y z :
  valid y -> ldtype y = DInt -> (0 <= z)%Z ->
  exists y', larry_power pow y (VInt z) = Ok y' /\ valid y' /\ llabel y' = llabel y /\ ldtype y' = DInt /\
  forall ls v, cell y ls = Some v -> exists a, v = VInt a /\ cell y' ls = Some (VInt (a ^ z)).
Proof.
  intros Hy Hd Hz. unfold larry_power. rewrite Hd. rewrite decide_False by lia.
  destruct (map_valid y DInt (fun v => match v with VInt a => VInt (a ^ z) | _ => v end) Hy) as [Hv Hc].
  { rewrite Hd. by intros []. }
  eexists. split_and!; [done..|]. intros ls v Hcell. rewrite Hc, Hcell. apply (valid_cell_typed _ _ _ Hy) in Hcell.
  rewrite Hd in Hcell. destruct v; try done. simpl. eauto.
Qed.
Theorem power_float_total pow y q n :
  valid y -> arithmetic (ldtype y) -> to_num q = Some n -> q = VFloat n \/ ldtype y = DFloat /\ has_dtype DInt q = true ->
  exists z, larry_power pow y q = Ok z /\ valid z /\ llabel z = llabel y /\ ldtype z = DFloat /\
  forall ls v, cell y ls = Some v -> exists m, to_num v = Some m /\ cell z ls = Some (VFloat (pow m n)).
Proof.
  intros Hy Ha Hq Hc. assert (larry_power pow y q = larry_ufunc (fun m => pow m n) y) as ->; [|by apply ufunc_total].
  unfold larry_power. destruct Hc as [->|[-> Hi]].
  - destruct Ha as [->|[->| ->]]; done.
  - destruct q; try done. by simplify_eq/=.
Qed.

(** * lastrank with decay *)

Lemma Qc_total_app l1 l2 : Qc_total (l1 ++ l2) = (Qc_total l1 + Qc_total l2)%Qc.
Proof. induction l1 as [|a l1 IH]; simpl; [by rewrite Qcplus_0_l|]. by rewrite IH, Qcplus_assoc. Qed.
Lemma num_total_fin qs : num_total (Fin <$> qs) = Fin (Qc_total qs).
Proof. induction qs as [|q qs IH]; [by apply (f_equal Fin), Qc_is_canon|]. change (num_add (Fin q) (num_total (Fin <$> qs)) = Fin (q + Qc_total qs)%Qc). by rewrite IH. Qed.
Lemma Qc_total_scale c qs : Qc_total ((fun q => c * q)%Qc <$> qs) = (c * Qc_total qs)%Qc.
Proof.
  induction qs as [|q qs IH]; [simpl; by rewrite Qcmult_0_r|].
  change (c * q + Qc_total ((fun q => c * q)%Qc <$> qs) = c * (q + Qc_total qs))%Qc. rewrite IH. ring.
Qed.
Lemma Qc_total_pos qs : qs <> [] -> Forall (fun q => 0 < q)%Qc qs -> (0 < Qc_total qs)%Qc.
Proof.
  intros Hne H. assert (Hnn : forall l, Forall (fun q => 0 < q)%Qc l -> (0 <= Qc_total l)%Qc).
  { induction 1 as [|q l Hq _ IH]; [done|]. simpl. rewrite <-(Qcplus_0_l 0). apply Qcplus_le_compat; [by apply Qclt_le_weak|done]. }
  destruct H as [|q l Hq Hl]; [done|]. simpl. apply Qclt_le_trans with q; [done|].
  rewrite <-(Qcplus_0_r q) at 1. apply Qcplus_le_compat; [apply Qcle_refl|by apply Hnn].
Qed.
Lemma weigh_fin p ns qs :
  weigh p ns (Fin <$> qs) = Fin (Qc_total (zip_with (fun n q => if p n : bool then q else 0%Qc) ns qs)).
Proof.
  unfold weigh. rewrite fold_total, num_add_0_l. rewrite <-num_total_fin. f_equal.
  revert qs. induction ns as [|n ns IH]; intros [|q qs]; try done. cbn [zip_with fmap list_fmap]. f_equal; [|apply IH].
  simpl. f_equal. destruct (p n).
  - replace (Qc_of_Z 1) with 1%Qc by (by apply Qc_is_canon). apply Qcmult_1_l.
  - replace (Qc_of_Z 0) with 0%Qc by (by apply Qc_is_canon). apply Qcmult_0_l.
Qed.
Lemma decay_weights_spec exp d w nt :
  (forall k, weight_of exp d k (w k)) -> 0 < nt ->
  exists c, (0 < c)%Qc /\
    decay_weights exp (Fin d) nt = Fin <$> ((fun k => c * w (nt - 1 - k)%nat)%Qc <$> seq 0 nt).
Proof.
  intros Hw Hnt. unfold decay_weights. set (qs := (fun k => w (nt - 1 - k)) <$> seq 0 nt).
  assert (Hes : (fun a => exp (num_mul (num_neg (Fin d)) a)) <$> ((fun k => num_sub (num_of_nat nt) (num_of_nat (S k))) <$> seq 0 nt) = Fin <$> qs).
  { unfold qs. rewrite <-!list_fmap_compose. apply list_fmap_ext. intros i k Hk. apply lookup_seq in Hk as [-> Hi]. simpl.
    destruct (Hw (nt - 1 - i)) as [E _]. rewrite <-E. unfold num_sub, num_of_nat, num_of_Z. cbn [num_neg num_add num_mul]. do 3 f_equal.
    rewrite <-Z2Qc_inj_opp, <-Z2Qc_inj_add. f_equal. lia. }
  rewrite Hes, fold_total, num_add_0_l, num_total_fin.
  assert (Hp : (0 < Qc_total qs)%Qc).
  { apply Qc_total_pos.
    - unfold qs. destruct nt; [lia|]. done.
    - unfold qs. apply Forall_fmap, Forall_forall. intros k _. apply Hw. }
  assert (H0 : Qc_total qs <> 0%Qc) by (intros E; rewrite E in Hp; by apply Qclt_not_eq in Hp).
  exists (Qc_of_Z (Z.of_nat nt) / Qc_total qs)%Qc. split.
  - assert (Hn : (0 < Qc_of_Z (Z.of_nat nt))%Qc) by (by apply Qc_of_nat_pos).
    apply Qcnot_le_lt. intros Hle. apply (Qcmult_le_compat_r _ _ (Qc_total qs)) in Hle; [|by apply Qclt_le_weak].
    rewrite Qcmult_0_l in Hle. unfold Qcdiv in Hle. rewrite <-Qcmult_assoc, (Qcmult_comm (/ _)), Qcmult_inv_r, Qcmult_1_r in Hle by done.
    by apply Qcle_not_lt in Hle.
  - set (S := Qc_total qs) in *. clearbody S. unfold qs. clear Hes qs Hp.
    rewrite <-!list_fmap_compose. apply list_fmap_ext. intros i k Hk. unfold compose, num_of_nat, num_of_Z. cbn [num_mul num_div].
    rewrite decide_False by done. f_equal. field. done.
Qed.

(** The sums over the other elements. *)
Lemma rank_sums n ms qs :
  is_finite n = true -> no_infinity ms -> length qs = length ms ->
  let other := filter (fun p => p.1 <> NaN) (zip ms qs) in
  let sum p := Qc_total (zip_with (fun m q => if p m : bool then q else 0%Qc) ms qs) in
  sum is_finite = Qc_total other.*2 /\
  (sum (fun m => num_ltb m n) + sum (fun m => num_ltb m n) + sum (fun m => num_eqb n m) - sum is_finite)%Qc =
  Qc_total ((fun p => against n p.1 * p.2)%Qc <$> other).
Proof.
  intros Hn. revert qs. induction ms as [|m ms IH]; intros [|q qs] Hinf Hlen; try done.
  cbv zeta in *. simpl in Hlen. destruct (IH qs) as [IH1 IH2]; [|lia|].
  { intros x Hx. apply Hinf. by constructor. }
  assert (Hm : is_inf m = false) by (apply Hinf; constructor).
  cbn [zip zip_with]. rewrite filter_cons. simpl. destruct (decide (m <> NaN)) as [Hnn|Hnn].
  - cbn [fmap list_fmap Qc_total foldr]. fold (Qc_total (snd <$> filter (fun p : num * Qc => p.1 <> NaN) (zip ms qs))).
    rewrite <-IH1. fold (Qc_total ((fun p : num * Qc => against n p.1 * p.2)%Qc <$> filter (fun p : num * Qc => p.1 <> NaN) (zip ms qs))).
    rewrite <-IH2. assert (is_finite m = true) as Hfm by (by destruct m).
    unfold Qc_total. cbn [foldr]. rewrite Hfm. split; [done|]. cbn [fst snd]. unfold against.
    destruct (num_trichotomy m n) as [H|[H|H]]; [done|by intros ->| | |].
    + rewrite (decide_True (P := num_lt m n)) by done. rewrite (proj2 (num_ltb_lt m n)) by done.
      assert (num_eqb n m = false) as ->.
      { apply not_true_is_false. intros E. apply num_eqb_same in E as [-> _]. by apply num_lt_irrefl in H. }
      ring.
    + subst m. rewrite !(decide_False (P := num_lt n n)) by apply num_lt_irrefl.
      assert (num_ltb n n = false) as ->.
      { apply not_true_is_false. intros E. apply num_ltb_lt in E. by apply num_lt_irrefl in E. }
      rewrite (proj2 (num_eqb_same n n)) by done. ring.
    + assert (Hx : ~ num_lt m n) by (intros E; by eapply num_lt_irrefl, num_lt_trans).
      rewrite (decide_False (P := num_lt m n)) by done. rewrite (decide_True (P := num_lt n m)) by done.
      assert (num_ltb m n = false) as -> by (apply not_true_is_false; intros E; by apply num_ltb_lt in E).
      assert (num_eqb n m = false) as ->.
      { apply not_true_is_false. intros E. apply num_eqb_same in E as [-> _]. by apply num_lt_irrefl in H. }
      ring.
  - apply dec_stable in Hnn as ->. unfold Qc_total in *. cbn [foldr is_finite num_ltb].
    assert (num_eqb n NaN = false) as -> by (by destruct n). rewrite !Qcplus_0_l. done.
Qed.
Lemma zip_with_snoc {A B C} (f : A -> B -> C) l x k y : length l = length k ->
  zip_with f (l ++ [x]) (k ++ [y]) = zip_with f l k ++ [f x y].
Proof. intros H. by rewrite zip_with_app. Qed.
Lemma filter_zip_scale (c : Qc) (ms : list num) (ws : list Qc) :
  filter (fun p : num * Qc => p.1 <> NaN) (zip ms ((fun q => c * q)%Qc <$> ws)) =
  (fun p => (p.1, c * p.2)%Qc) <$> filter (fun p : num * Qc => p.1 <> NaN) (zip ms ws).
Proof.
  revert ws. induction ms as [|m ms IH]; intros [|q ws]; try done. cbn [fmap list_fmap zip zip_with].
  rewrite !filter_cons. cbn [fst]. case_decide; cbn [fmap list_fmap]; rewrite <-IH; done.
Qed.
Lemma lastrank_decay_lane_spec exp d w ns :
  (forall k, weight_of exp d k (w k)) -> ns <> [] -> no_infinity ns ->
  decay_ranked w ns (lastrank_decay_lane exp (Fin d) ns).
Proof.
  intros Hw Hne Hinf. destruct (exists_last Hne) as (ms & n & ->). unfold decay_ranked, lastrank_decay_lane.
  rewrite last_snoc. exists n. split; [done|].
  assert (Hlen : length (ms ++ [n]) = S (length ms)) by (rewrite app_length; simpl; lia). rewrite Hlen.
  destruct (decay_weights_spec exp d w (S (length ms)) Hw ltac:(lia)) as (c & Hc & ->).
  set (ws := (fun k => w (length ms - k)) <$> seq 0 (length ms)).
  assert (Hws : (fun k => c * w (S (length ms) - 1 - k)%nat)%Qc <$> seq 0 (S (length ms)) = ((fun q => c * q)%Qc <$> ws) ++ [(c * w 0%nat)%Qc]).
  { rewrite seq_S, fmap_app. unfold ws. rewrite <-list_fmap_compose. f_equal.
    - apply list_fmap_ext. intros i k _. simpl. do 2 f_equal. lia.
    - simpl. do 3 f_equal. lia. }
  rewrite Hws, fmap_app, last_app. cbn [fmap list_fmap last].
  rewrite <-(fmap_app Fin _ [(c * w 0%nat)%Qc]). set (qs := (fun q => c * q)%Qc <$> ws).
  assert (Hlq : length ms = length qs) by (unfold qs, ws; by rewrite !fmap_length, seq_length).
  rewrite !weigh_fin, !zip_with_snoc by done. rewrite !Qc_total_app.
  assert (Hinf' : no_infinity ms) by (intros x Hx; apply Hinf, elem_of_app; by left).
  assert (Hin : is_inf n = false) by (apply Hinf, elem_of_app; right; constructor).
  destruct (is_finite n) eqn:Hfn.
  2:{ case_decide; [done|]. by destruct n. }
  rewrite (decide_False (P := n = NaN)) by (by intros ->).
  destruct (rank_sums n ms qs Hfn Hinf' ltac:(lia)) as [HC HG]. cbv zeta in HC, HG.
  assert (num_ltb n n = false) as ->.
  { apply not_true_is_false. intros E. apply num_ltb_lt in E. by apply num_lt_irrefl in E. }
  rewrite (proj2 (num_eqb_same n n)) by (split; [done|by intros ->]).
  set (G := Qc_total (zip_with (fun m q => if num_ltb m n then q else 0%Qc) ms qs)) in *.
  set (E := Qc_total (zip_with (fun m q => if num_eqb n m then q else 0%Qc) ms qs)) in *.
  set (C := Qc_total (zip_with (fun m q => if is_finite m then q else 0%Qc) ms qs)) in *.
  assert (Hpr : length (present (ms ++ [n])) = S (length (present ms))).
  { unfold present. rewrite filter_app, app_length, filter_cons, decide_True by (by intros ->). simpl. lia. }
  set (oth := filter (fun p : num * Qc => p.1 <> NaN) (zip ms ws)).
  assert (Hoth : filter (fun p : num * Qc => p.1 <> NaN) (zip ms qs) = (fun p => (p.1, c * p.2)%Qc) <$> oth) by apply filter_zip_scale.
  rewrite Hoth in HC, HG. rewrite <-!list_fmap_compose in HC, HG.
  assert (HC' : C = (c * Qc_total oth.*2)%Qc).
  { rewrite HC, <-Qc_total_scale. f_equal. by rewrite <-list_fmap_compose. }
  assert (HG' : (G + G + E - C)%Qc = (c * Qc_total ((fun p => against n p.1 * p.2)%Qc <$> oth))%Qc).
  { rewrite HG, <-Qc_total_scale. f_equal. rewrite <-list_fmap_compose. apply list_fmap_ext. intros i p _. simpl. ring. }
  assert (Hlo : length oth = length (present ms)).
  { unfold oth, present. assert (length ws = length ms) as Hl by (unfold ws; by rewrite fmap_length, seq_length). clearbody ws. clear -Hl.
    revert ws Hl. induction ms as [|m ms IH]; intros [|q ws] Hl; try done. cbn [zip zip_with]. rewrite !filter_cons. cbn [fst].
    simpl in Hl. case_decide; simpl; rewrite IH by lia; done. }
  assert (Hsub : forall a b, num_sub (Fin a) (Fin b) = Fin (a - b)%Qc) by done.
  cbn [num_add Qc_total foldr]. rewrite !Qcplus_0_r.
  unfold num_of_Z. rewrite !Hsub.
  assert (H2 : forall a, num_div (Fin a) (Fin (Qc_of_Z 2)) = Fin (a / (1 + 1))%Qc).
  { intros a. cbn [num_div]. by rewrite decide_False by done. }
  rewrite !H2. replace (C + c * w 0%nat - c * w 0%nat)%Qc with C by ring.
  case_decide as H1.
  - assert (oth = []) as Ho by (destruct oth; [done|simpl in Hlo; lia]).
    rewrite Ho in HC', HG'. simpl in HC', HG'. assert (C = 0%Qc) as -> by (rewrite HC'; ring).
    assert ((G + G + E)%Qc = 0%Qc) as HGE by (rewrite Qcmult_0_r in HG'; rewrite <-HG'; ring).
    cbn [num_div]. rewrite decide_True by done.
    replace ((G + G + (E + c * w 0%nat) - c * w 0%nat) / (1 + 1))%Qc with 0%Qc.
    2:{ replace (G + G + (E + c * w 0%nat) - c * w 0%nat)%Qc with (G + G + E)%Qc by ring. rewrite HGE. by apply Qc_is_canon. }
    rewrite inf_sign_zero. done.
  - assert (Hpos : (0 < Qc_total oth.*2)%Qc).
    { apply Qc_total_pos.
      - destruct oth; [simpl in Hlo; lia|done].
      - apply Forall_fmap, Forall_forall. intros p Hp. unfold oth in Hp. rewrite elem_of_list_filter in Hp.
        destruct Hp as [_ Hp]. destruct p as [m q]. apply elem_of_zip_r in Hp. unfold ws in Hp.
        apply elem_of_list_fmap in Hp as (k & -> & _). apply Hw. }
    assert (Hn0 : Qc_total oth.*2 <> 0%Qc) by (intros E0; rewrite E0 in Hpos; by apply Qclt_not_eq in Hpos).
    assert (Hc0 : c <> 0%Qc) by (intros E0; rewrite E0 in Hc; by apply Qclt_not_eq in Hc).
    assert (HC0 : C <> 0%Qc).
    { rewrite HC'. intros E0. apply Qcmult_integral in E0 as [?|?]; done. }
    cbn [num_div]. rewrite (decide_False (P := C = 0%Qc)) by done. rewrite Hsub. cbn [num_mul]. eexists. split; [done|].
    unfold weighted_rank. replace (S (length ms) - 1) with (length ms) by lia. rewrite take_app.
    assert (Hd : decayed w (ms ++ [n]) = ws).
    { unfold decayed, ws. rewrite Hlen. replace (S (length ms) - 1) with (length ms) by lia. done. }
    rewrite Hd. fold oth. split; [done|].
    replace (Qc_of_Z 2) with (1 + 1)%Qc by (by apply Qc_is_canon). replace (Qc_of_Z 1) with 1%Qc by (by apply Qc_is_canon).
    set (T := Qc_total ((fun p => against n p.1 * p.2)%Qc <$> oth)) in *.
    assert (HGE : (G + G + E)%Qc = (c * T + C)%Qc) by (rewrite <-HG'; ring).
    replace (G + G + (E + c * w 0%nat) - c * w 0%nat)%Qc with (c * T + C)%Qc by (rewrite <-HGE; ring).
    rewrite HC'. field. split; [done|]. split; done.
Qed.
Theorem lastrank_decay_total exp d w y a ax :
  (0 < d)%Qc -> (forall k, weight_of exp d k (w k)) ->
  valid y -> numeric_larry y -> nonempty y -> axis_is y a ax ->
  exists o, larry_lastrank_decay exp y a (Fin d) = Ok o /\
    reduction_by (fun vs v => exists ns m, numbers vs ns /\ v = VFloat m /\ (no_infinity ns -> decay_ranked w ns m)) y (Some a) o.
Proof.
  intros Hd Hw Hv Hn Hne Hax. unfold larry_lastrank_decay.
  rewrite (proj1 (axis_is_py y a ax Hv) Hax). cbn [of_opt mbind res_bind]. rewrite decide_False by (by apply size_nonempty).
  assert (num_ltb (num_of_Z 0) (Fin d) = true) as -> by (by apply num_ltb_lt).
  apply (reduce_nums_spec (fun ns m => no_infinity ns -> decay_ranked w ns m)); [|done..|by exists ax].
  intros ns Hns Hinf. by apply lastrank_decay_lane_spec.
Qed.
Theorem lastrank_decay_zero exp y a : larry_lastrank_decay exp y a (num_of_Z 0) = larry_lastrank y a.
Proof.
  unfold larry_lastrank_decay. change (num_ltb (num_of_Z 0) (num_of_Z 0)) with false. cbv iota.
  destruct (py_index (lndim y) a) as [ax|] eqn:Ea; [|unfold larry_lastrank; by rewrite Ea]. cbn [of_opt mbind res_bind].
  destruct (decide (lsize y = 0)) as [E|]; [|done]. unfold larry_lastrank, reduce_nums. rewrite !Ea. cbn [of_opt mbind res_bind].
  rewrite !(decide_True (P := lsize y = 0)) by done. done.
Qed.
Theorem lastrank_decay_axis exp y a d :
  valid y -> (forall ax, ~ axis_is y a ax) -> larry_lastrank_decay exp y a d = Err IndexError.
Proof.
  intros Hv Hax. unfold larry_lastrank_decay. destruct (py_index (lndim y) a) as [ax|] eqn:E; [|done]. destruct (Hax ax). by apply axis_is_py.
Qed.
Theorem lastrank_decay_negative exp y a ax d :
  valid y -> axis_is y a ax -> lsize y <> 0 -> (d < 0)%Qc -> larry_lastrank_decay exp y a (Fin d) = Err ValueError.
Proof.
  intros Hv Hax Hs Hd. unfold larry_lastrank_decay. rewrite (proj1 (axis_is_py y a ax Hv) Hax). cbn [of_opt mbind res_bind].
  rewrite decide_False by done.
  assert (num_ltb (num_of_Z 0) (Fin d) = false) as ->.
  { apply not_true_is_false. intros E. apply num_ltb_lt in E. simpl in E. apply (Qclt_not_le _ _ Hd). by apply Qclt_le_weak. }
  by rewrite (proj2 (num_ltb_lt (Fin d) (num_of_Z 0))).
Qed.
Lemma against_bounds n m : (- (1) <= against n m <= 1)%Qc.
Proof. unfold against. repeat case_decide; split; done. Qed.
Lemma Qc_le_mul_pos a b c : (0 < c)%Qc -> (a * c <= b * c)%Qc -> (a <= b)%Qc.
Proof. apply Qcmult_lt_0_le_reg_r. Qed.
Theorem weighted_rank_bounds n ms ws q :
  Forall (fun w => 0 < w)%Qc ws -> weighted_rank n ms ws q ->
  (-(1) <= q <= 1)%Qc.
Proof.
  intros Hw [H0 Hq]. set (other := filter _ _) in *.
  assert (Hpos : Forall (fun p => 0 < p.2)%Qc other).
  { apply Forall_forall. intros p Hp. unfold other in Hp. rewrite elem_of_list_filter in Hp. destruct Hp as [_ Hp].
    destruct p as [m w]. apply elem_of_zip_r in Hp. by eapply Forall_forall in Hw. }
  assert (Hp : (0 < Qc_total other.*2)%Qc).
  { apply Qc_total_pos; [by intros E; rewrite E in H0|]. by apply Forall_fmap. }
  assert (Hb : (- (1) * Qc_total other.*2 <= Qc_total ((fun p => against n p.1 * p.2) <$> other) <= 1 * Qc_total other.*2)%Qc).
  { clear -Hpos. induction Hpos as [|p l Hp _ [IH1 IH2]]; [done|]. destruct (against_bounds n p.1) as [H1 H2].
    cbn [fmap list_fmap Qc_total foldr]. fold (Qc_total l.*2). fold (Qc_total ((fun p : num * Qc => against n p.1 * p.2)%Qc <$> l)).
    split.
    - replace (- (1) * (p.2 + Qc_total l.*2))%Qc with (- (1) * p.2 + - (1) * Qc_total l.*2)%Qc by ring.
      apply Qcplus_le_compat; [|done]. apply Qcmult_le_compat_r; [done|by apply Qclt_le_weak].
    - replace (1 * (p.2 + Qc_total l.*2))%Qc with (1 * p.2 + 1 * Qc_total l.*2)%Qc by ring.
      apply Qcplus_le_compat; [|done]. apply Qcmult_le_compat_r; [done|by apply Qclt_le_weak]. }
  rewrite <-Hq in Hb. destruct Hb as [Hb1 Hb2]. split; by apply (Qc_le_mul_pos _ _ (Qc_total other.*2)).
Qed.
(** The weighted rank is 1 only if [n] is above all other numbers. *)
Theorem weighted_rank_top n ms ws q :
  Forall (fun w => 0 < w)%Qc ws -> length ws = length ms -> weighted_rank n ms ws q ->
  (q = 1%Qc <-> forall m, m ∈ ms -> m <> NaN -> num_lt m n) /\
  (n <> NaN -> q = (-(1))%Qc <-> forall m, m ∈ ms -> m <> NaN -> num_lt n m).
Proof.
  intros Hw Hlen [H0 Hq]. set (other := filter _ _) in *.
  assert (Hpos : Forall (fun p => 0 < p.2)%Qc other).
  { apply Forall_forall. intros p Hp. unfold other in Hp. rewrite elem_of_list_filter in Hp. destruct Hp as [_ Hp].
    destruct p as [m w]. apply elem_of_zip_r in Hp. by eapply Forall_forall in Hw. }
  assert (Hin : forall m, m ∈ ms /\ m <> NaN <-> exists w, (m, w) ∈ other).
  { intros m. unfold other. split.
    - intros [Hm Hn]. apply elem_of_list_lookup in Hm as (i & Hi). destruct (lookup_lt_is_Some_2 ws i) as [w Hwi].
      { rewrite Hlen. by eapply lookup_lt_Some. }
      exists w. rewrite elem_of_list_filter. split; [done|]. apply elem_of_list_lookup. exists i. apply lookup_zip_with_Some. eauto.
    - intros [w Hp]. rewrite elem_of_list_filter in Hp. destruct Hp as [Hn Hp]. apply elem_of_zip_l in Hp. done. }
  assert (Hsum : forall s, (s * Qc_total other.*2 = Qc_total ((fun p => against n p.1 * p.2) <$> other))%Qc ->
    (s = 1 \/ s = -(1))%Qc -> Forall (fun p => against n p.1 = s) other).
  { intros s Hs Hs1. assert (Hz : Qc_total ((fun p => (1 - s * against n p.1) * p.2)%Qc <$> other) = 0%Qc).
    { assert (Hss : (s * s)%Qc = 1%Qc) by (destruct Hs1 as [-> | ->]; by apply Qc_is_canon).
      assert (E : Qc_total ((fun p => (1 - s * against n p.1) * p.2)%Qc <$> other) =
                 (Qc_total other.*2 - s * Qc_total ((fun p => against n p.1 * p.2)%Qc <$> other))%Qc).
      { clear. clearbody other. induction other as [|p l IH]; [simpl; ring|].
        cbn [fmap list_fmap Qc_total foldr]. fold (Qc_total l.*2). fold (Qc_total ((fun p : num * Qc => against n p.1 * p.2)%Qc <$> l)).
        fold (Qc_total ((fun p : num * Qc => (1 - s * against n p.1) * p.2)%Qc <$> l)). rewrite IH. ring. }
      rewrite E, <-Hs. replace (Qc_total other.*2 - s * (s * Qc_total other.*2))%Qc with ((1 - s * s) * Qc_total other.*2)%Qc by ring.
      rewrite Hss. ring. }
    assert (Hnn : Forall (fun p => 0 <= (1 - s * against n p.1) * p.2)%Qc other).
    { eapply Forall_impl; [exact Hpos|]. intros p Hp. simpl in Hp. rewrite <-(Qcmult_0_l p.2).
      apply Qcmult_le_compat_r; [|by apply Qclt_le_weak]. unfold against. destruct Hs1 as [-> | ->]; repeat case_decide; done. }
    assert (Hall : Forall (fun p => ((1 - s * against n p.1) * p.2)%Qc = 0%Qc) other).
    { clear -Hz Hnn. induction Hnn as [|p l Hp Hl IH]; [done|]. cbn [fmap list_fmap Qc_total foldr] in Hz.
      fold (Qc_total ((fun p : num * Qc => (1 - s * against n p.1) * p.2)%Qc <$> l)) in Hz.
      assert (Hl0 : (0 <= Qc_total ((fun p => (1 - s * against n p.1) * p.2)%Qc <$> l))%Qc).
      { clear -Hl. induction Hl as [|p l Hp _ IH]; [done|]. simpl. rewrite <-(Qcplus_0_l 0). by apply Qcplus_le_compat. }
      assert (Hp0 : ((1 - s * against n p.1) * p.2)%Qc = 0%Qc).
      { apply Qcle_antisym; [|done]. rewrite <-Hz. rewrite <-(Qcplus_0_r ((1 - s * against n p.1) * p.2)) at 1.
        apply Qcplus_le_compat; [apply Qcle_refl|done]. }
      constructor; [done|]. apply IH. rewrite Hp0, Qcplus_0_l in Hz. done. }
    apply Forall_forall. intros p Hp. eapply Forall_forall in Hall; [|exact Hp]. eapply Forall_forall in Hpos; [|exact Hp].
    apply Qcmult_integral in Hall as [E|E].
    - destruct Hs1 as [-> | ->].
      + replace (against n p.1) with (1 - (1 - 1 * against n p.1))%Qc by ring. rewrite E. by apply Qc_is_canon.
      + replace (against n p.1) with (- (1) + (1 - -(1) * against n p.1))%Qc by ring. rewrite E. by apply Qc_is_canon.
    - rewrite E in Hpos. by apply Qclt_not_eq in Hpos. }
  assert (Hconv : forall s, Forall (fun p => against n p.1 = s) other -> q = s).
  { intros s Hs. assert (E : Qc_total ((fun p => against n p.1 * p.2)%Qc <$> other) = (s * Qc_total other.*2)%Qc).
    { clear -Hs. induction Hs as [|p l Hp _ IH]; [simpl; ring|]. cbn [fmap list_fmap Qc_total foldr]. fold (Qc_total l.*2).
      fold (Qc_total ((fun p : num * Qc => against n p.1 * p.2)%Qc <$> l)). rewrite IH, Hp. ring. }
    rewrite E in Hq. apply (f_equal (fun t => t * / Qc_total other.*2)%Qc) in Hq.
    rewrite <-!Qcmult_assoc, !Qcmult_inv_r, !Qcmult_1_r in Hq by done. done. }
  split.
  - split.
    + intros -> m Hm Hn. destruct (proj1 (Hin m) (conj Hm Hn)) as [w Hp]. specialize (Hsum 1%Qc Hq (or_introl eq_refl)).
      eapply Forall_forall in Hsum; [|exact Hp]. simpl in Hsum. unfold against in Hsum. repeat case_decide; done.
    + intros H. apply Hconv, Forall_forall. intros [m w] Hp. unfold against. rewrite decide_True; [done|].
      destruct (proj2 (Hin m)) as [Hm Hn]; [eauto|]. by apply H.
  - intros Hnn. split.
    + intros -> m Hm Hn. destruct (proj1 (Hin m) (conj Hm Hn)) as [w Hp]. specialize (Hsum (-(1))%Qc Hq (or_intror eq_refl)).
      eapply Forall_forall in Hsum; [|exact Hp]. simpl in Hsum. unfold against in Hsum. repeat case_decide; done.
    + intros H. apply Hconv, Forall_forall. intros [m w] Hp. unfold against. destruct (proj2 (Hin m)) as [Hm Hn]; [eauto|].
      specialize (H m Hm Hn). rewrite decide_False by (intros E; by eapply num_lt_irrefl, num_lt_trans). by rewrite decide_True.
Qed.

(** * correlation *)

Lemma both_flat ps : filter (fun p : num * num => is_nan p.1 || is_nan p.2 = false) ps = both_present ps.*1 ps.*2.
Proof.
  unfold both_present. rewrite zip_fst_snd. apply list_filter_iff. intros [a b]. simpl. destruct a, b; simpl; split; intros; repeat split; naive_solver.
Qed.
Lemma plain_total l : plain_sum l = num_total l.
Proof. unfold plain_sum. by rewrite fold_total, num_add_0_l. Qed.
Lemma num_mean_of l : num_mean l = mean_of l.
Proof. unfold num_mean, mean_of. by rewrite fold_total, num_add_0_l. Qed.
Lemma zip_with_diag {A B} (f : A -> A -> B) l : zip_with f l l = (fun a => f a a) <$> l.
Proof. induction l as [|a l IH]; [done|]. cbn [zip_with fmap list_fmap]. by rewrite IH. Qed.
Lemma root_of_0 sqrt : root_of sqrt -> sqrt (num_of_Z 0) = num_of_Z 0.
Proof.
  intros H. specialize (H 0%Qc ltac:(done)). rewrite Qcmult_0_l in H. by replace (num_of_Z 0) with (Fin 0%Qc) by (by apply (f_equal Fin), Qc_is_canon).
Qed.
Lemma corr_plain_ratio sqrt ps :
  corr_plain sqrt ps = num_div (dot_of (deviations ps.*1) (deviations ps.*2))
     (sqrt (num_mul (dot_of (deviations ps.*1) (deviations ps.*1)) (dot_of (deviations ps.*2) (deviations ps.*2)))).
Proof.
  unfold corr_plain, corr_ratio, dot_of, deviations. rewrite !plain_total, !num_mean_of, !zip_with_diag. done.
Qed.
Lemma corr_flat_spec sqrt us vs :
  root_of sqrt -> length us = length vs -> correlated sqrt us vs (corr_flat sqrt (zip us vs)).
Proof.
  intros Hr Hl. unfold corr_flat, correlated. rewrite both_flat, fst_zip, snd_zip by lia.
  case_decide as E; [|apply corr_plain_ratio]. rewrite E, corr_plain_ratio. simpl.
  change (num_div (num_of_Z 0) (sqrt (num_mul (num_of_Z 0) (num_of_Z 0))) = NaN). rewrite mul_0_0, root_of_0 by done. done.
Qed.
Lemma no_nan_flat sqrt ps :
  existsb (fun p : num * num => is_nan p.1 || is_nan p.2) ps = false -> corr_plain sqrt ps = corr_flat sqrt ps.
Proof.
  intros H. unfold corr_flat. f_equal. induction ps as [|p ps IH]; [done|]. simpl in H. apply orb_false_iff in H as [H1 H2].
  rewrite filter_cons_True by done. by rewrite <-IH.
Qed.
Lemma corr_nan_filter m1 m2 (ps : list (num * num)) :
  (forall p, p ∈ both_present ps.*1 ps.*2 -> exists a b, num_sub p.1 m1 = Fin a /\ num_sub p.2 m2 = Fin b) ->
  let x1 := (fun a => num_sub a m1) <$> ((fun p : num * num => if is_nan p.1 || is_nan p.2 then NaN else p.1) <$> ps) in
  let x2 := (fun a => num_sub a m2) <$> ((fun p : num * num => if is_nan p.1 || is_nan p.2 then NaN else p.2) <$> ps) in
  let bp := both_present ps.*1 ps.*2 in
  let d1 := (fun a => num_sub a m1) <$> bp.*1 in
  let d2 := (fun a => num_sub a m2) <$> bp.*2 in
  filter (fun n => n <> NaN) (zip_with num_mul x1 x2) = zip_with num_mul d1 d2 /\
  filter (fun n => n <> NaN) ((fun a => num_mul a a) <$> x1) = ((fun a => num_mul a a) <$> d1) /\
  filter (fun n => n <> NaN) ((fun a => num_mul a a) <$> x2) = ((fun a => num_mul a a) <$> d2).
Proof.
  induction ps as [|[u v] ps IH]; intros H; [done|]. cbv zeta in *.
  rewrite <-both_flat in H |- *. rewrite <-both_flat in IH.
  destruct (is_nan u || is_nan v) eqn:E.
  - rewrite filter_cons_False in H by (simpl; by rewrite E). rewrite (filter_cons_False _ (u, v)) by (simpl; by rewrite E).
    destruct (IH H) as (H1 & H2 & H3). cbn [fmap list_fmap zip_with fst snd]. rewrite E. change (num_sub NaN m1) with NaN. change (num_sub NaN m2) with NaN. change (num_mul NaN NaN) with NaN.
    rewrite !filter_cons_False by (intros Hn; by apply Hn). done.
  - rewrite filter_cons_True in H by done. rewrite (filter_cons_True _ (u, v)) by done.
    destruct IH as (H1 & H2 & H3); [intros p Hp; apply H; by constructor|].
    destruct (H (u, v)) as (a & b & Ha & Hb); [by constructor|]. simpl in Ha, Hb.
    cbn [fmap list_fmap zip_with fst snd]. rewrite E, Ha, Hb. cbn [num_mul].
    rewrite !filter_cons_True by done. split_and!; f_equal; done.
Qed.
Lemma corr_nan_present (ps : list (num * num)) :
  filter (fun n => n <> NaN) ((fun p : num * num => if is_nan p.1 || is_nan p.2 then NaN else p.1) <$> ps) = (both_present ps.*1 ps.*2).*1 /\
  filter (fun n => n <> NaN) ((fun p : num * num => if is_nan p.1 || is_nan p.2 then NaN else p.2) <$> ps) = (both_present ps.*1 ps.*2).*2.
Proof.
  rewrite <-both_flat. induction ps as [|[u v] ps [IH1 IH2]]; [done|]. cbn [fmap list_fmap fst snd].
  destruct (is_nan u || is_nan v) eqn:E.
  - rewrite !(filter_cons_False _ NaN) by (intros Hn; by apply Hn). rewrite (filter_cons_False _ (u, v)) by (simpl; by rewrite E). done.
  - apply orb_false_iff in E as E'. destruct E' as [Eu Ev].
    rewrite (filter_cons_True _ u) by (by intros ->). rewrite (filter_cons_True _ v) by (by intros ->).
    rewrite (filter_cons_True _ (u, v)) by done. cbn [fmap list_fmap fst snd]. by rewrite IH1, IH2.
Qed.
Lemma finite_list ns : no_infinity ns -> NaN ∉ ns -> exists qs, ns = Fin <$> qs.
Proof.
  intros Hi Hn. induction ns as [|n ns IH]; [by exists []|]. destruct IH as [qs ->].
  - intros m Hm. apply Hi. by constructor.
  - intros H. apply Hn. by constructor.
  - specialize (Hi n ltac:(by constructor)). destruct n as [q| | |]; try done.
    + by exists (q :: qs).
    + exfalso. apply Hn. by constructor.
Qed.
Lemma both_present_finite us vs :
  length us = length vs -> no_infinity (us ++ vs) -> exists qs rs, both_present us vs = zip (Fin <$> qs) (Fin <$> rs) /\ length qs = length rs.
Proof.
  intros Hl Hinf. set (bp := both_present us vs).
  assert (Hin : forall a b, (a, b) ∈ bp -> a <> NaN /\ b <> NaN /\ a ∈ us /\ b ∈ vs).
  { intros a b Hp. unfold bp, both_present in Hp. rewrite elem_of_list_filter in Hp. destruct Hp as [[Ha Hb] Hp]. simpl in Ha, Hb.
    split_and!; [done..| |]; [by eapply elem_of_zip_l|by eapply elem_of_zip_r]. }
  destruct (finite_list bp.*1) as [qs Hqs].
  { intros n Hn. apply elem_of_list_fmap in Hn as ([a b] & -> & Hp). apply Hinf, elem_of_app. left. apply (Hin a b Hp). }
  { intros Hn. apply elem_of_list_fmap in Hn as ([a b] & E & Hp). destruct (Hin a b Hp) as [Hx _]. by apply Hx. }
  destruct (finite_list bp.*2) as [rs Hrs].
  { intros n Hn. apply elem_of_list_fmap in Hn as ([a b] & -> & Hp). apply Hinf, elem_of_app. right. apply (Hin a b Hp). }
  { intros Hn. apply elem_of_list_fmap in Hn as ([a b] & E & Hp). destruct (Hin a b Hp) as (_ & Hx & _). by apply Hx. }
  exists qs, rs. rewrite <-Hqs, <-Hrs, zip_fst_snd. split; [done|].
  rewrite <-(fmap_length Fin qs), <-(fmap_length Fin rs), <-Hqs, <-Hrs, !fmap_length. done.
Qed.
Lemma mean_of_fin qs : qs <> [] -> exists m, mean_of (Fin <$> qs) = Fin m /\ (m * Qc_of_Z (Z.of_nat (length qs)) = Qc_total qs)%Qc.
Proof.
  intros Hne. unfold mean_of. rewrite num_total_fin, fmap_length. unfold num_of_nat, num_of_Z.
  assert (Hp : (0 < Qc_of_Z (Z.of_nat (length qs)))%Qc) by (apply Qc_of_nat_pos; by destruct qs; [|simpl; lia]).
  assert (Hnz : Qc_of_Z (Z.of_nat (length qs)) <> 0%Qc) by (intros E; rewrite E in Hp; by apply Qclt_not_eq in Hp).
  cbn [num_div]. rewrite decide_False by done. eexists. split; [done|]. unfold Qcdiv. rewrite <-Qcmult_assoc, Qcmult_comm with (x := (/ _)%Qc), Qcmult_inv_r, Qcmult_1_r by done. done.
Qed.
Lemma corr_nan_spec sqrt us vs :
  length us = length vs -> no_infinity (us ++ vs) -> correlated sqrt us vs (corr_nan sqrt (zip us vs)).
Proof.
  intros Hl Hinf. destruct (both_present_finite us vs Hl Hinf) as (qs & rs & Hbp & Hlen).
  unfold corr_nan, correlated, centre_lane.
  assert (Hz : both_present (zip us vs).*1 (zip us vs).*2 = both_present us vs) by (by rewrite fst_zip, snd_zip by lia).
  destruct (corr_nan_present (zip us vs)) as [H1 H2]. rewrite Hz in H1, H2. rewrite H1, H2.
  unfold corr_ratio, nan_sum. set (m1 := float_red RMean _). set (m2 := float_red RMean (both_present _ _).*2).
  assert (Hm : qs <> [] -> (exists q, mean_of (both_present us vs).*1 = Fin q /\ m1 = Fin q) /\ (exists q, mean_of (both_present us vs).*2 = Fin q /\ m2 = Fin q)).
  { intros Hne. assert (Hne2 : rs <> []) by (by destruct qs, rs). unfold m1, m2. rewrite Hbp, fst_zip, snd_zip by (rewrite !fmap_length; lia).
    destruct (mean_of_fin qs Hne) as (a & Ha & _). destruct (mean_of_fin rs Hne2) as (b & Hb & _).
    split; [exists a|exists b]; (split; [done|]).
    - destruct qs; [done|]. cbn [fmap list_fmap float_red]. by rewrite num_mean_of.
    - destruct rs; [done|]. cbn [fmap list_fmap float_red]. by rewrite num_mean_of. }
  destruct (corr_nan_filter m1 m2 (zip us vs)) as (F1 & F2 & F3).
  { rewrite Hz, Hbp. intros [a b] Hp. assert (Hne : qs <> []) by (intros ->; by apply elem_of_nil in Hp).
    destruct (Hm Hne) as [(q & _ & ->) (r & _ & ->)].
    pose proof (elem_of_zip_l _ _ _ _ Hp) as Ha. pose proof (elem_of_zip_r _ _ _ _ Hp) as Hb.
    apply elem_of_list_fmap in Ha as (qa & -> & _). apply elem_of_list_fmap in Hb as (qb & -> & _). simpl. eauto. }
  cbv zeta in F1, F2, F3. rewrite F1, F2, F3, Hz. case_decide as E; [by rewrite E|].
  assert (Hne : qs <> []) by (intros ->; rewrite Hbp in E; done).
  destruct (Hm Hne) as [(q & E1 & ->) (r & E2 & ->)]. unfold deviations. rewrite E1, E2.
  assert (Hb2 : both_present us vs <> []) by done. destruct (both_present us vs) as [|[a b] bp]; [done|].
  unfold dot_of. rewrite !zip_with_diag. cbn [fmap list_fmap fst snd zip_with float_red]. by rewrite !fold_total, !num_add_0_l.
Qed.
Lemma zip_get (a1 a2 : arr val) n1 n2 idx p :
  shape a1 = shape a2 -> Forall2 (fun v n => to_num v = Some n) (data a1) n1 -> Forall2 (fun v n => to_num v = Some n) (data a2) n2 ->
  aget (Arr (shape a1) (zip n1 n2)) idx = Some p ->
  exists v1 v2, aget a1 idx = Some v1 /\ aget a2 idx = Some v2 /\ to_num v1 = Some p.1 /\ to_num v2 = Some p.2.
Proof.
  intros Hs H1 H2. unfold aget. rewrite <-Hs. simpl. case_decide; [|done]. intros Hp.
  apply lookup_zip_with_Some in Hp as (u & v & -> & Hu & Hv). simpl.
  eapply Forall2_lookup_r in H1 as (v1 & Hv1 & E1); [|exact Hu]. eapply Forall2_lookup_r in H2 as (v2 & Hv2 & E2); [|exact Hv]. eauto 10.
Qed.
Lemma zip_lane (a1 a2 : arr val) n1 n2 ax idx ps :
  shape a1 = shape a2 -> Forall2 (fun v n => to_num v = Some n) (data a1) n1 -> Forall2 (fun v n => to_num v = Some n) (data a2) n2 ->
  lane (Arr (shape a1) (zip n1 n2)) ax (insert_at ax 0 idx) = Some ps -> ax <= length idx ->
  exists vs1 vs2, array_lane a1 ax idx vs1 /\ array_lane a2 ax idx vs2 /\ numbers vs1 ps.*1 /\ numbers vs2 ps.*2.
Proof.
  intros Hs H1 H2 Hl Hax. apply lane_Some in Hl as (n & Hn & Hlen & Hg). simpl in Hn.
  assert (Hins : forall k, <[ax:=k]> (insert_at ax 0 idx) = take ax idx ++ k :: drop ax idx).
  { intros k. unfold insert_at. rewrite insert_app_r_alt by (rewrite take_length; lia).
    rewrite take_length_le by done. by rewrite Nat.sub_diag. }
  assert (Hex : forall k p, ps !! k = Some p -> exists v : val * val, (aget a1 (take ax idx ++ k :: drop ax idx) = Some v.1 /\ aget a2 (take ax idx ++ k :: drop ax idx) = Some v.2) /\ to_num v.1 = Some p.1 /\ to_num v.2 = Some p.2).
  { intros k p Hp. pose proof (lookup_lt_Some _ _ _ Hp) as Hk. rewrite Hlen in Hk. specialize (Hg k Hk). rewrite Hins, Hp in Hg.
    destruct (zip_get a1 a2 n1 n2 _ p Hs H1 H2 Hg) as (v1 & v2 & E1 & E2 & E3 & E4). exists (v1, v2). done. }
  assert (Hvs : exists vs : list (val * val), length vs = length ps /\ forall k v p, vs !! k = Some v -> ps !! k = Some p ->
     (aget a1 (take ax idx ++ k :: drop ax idx) = Some v.1 /\ aget a2 (take ax idx ++ k :: drop ax idx) = Some v.2) /\ to_num v.1 = Some p.1 /\ to_num v.2 = Some p.2).
  { clear -Hex. revert Hex. generalize (fun k (v : val * val) (p : num * num) => (aget a1 (take ax idx ++ k :: drop ax idx) = Some v.1 /\ aget a2 (take ax idx ++ k :: drop ax idx) = Some v.2) /\ to_num v.1 = Some p.1 /\ to_num v.2 = Some p.2).
    intros P. induction ps as [|p ps IH] using rev_ind; intros Hex; [by exists []|].
    destruct IH as (vs & Hl & Hvs).
    { intros k q Hq. apply Hex. rewrite lookup_app_l; [done|]. by eapply lookup_lt_Some. }
    destruct (Hex (length ps) p) as [v Hv]; [by apply list_lookup_middle|].
    exists (vs ++ [v]). rewrite !app_length, Hl. split; [done|]. intros k v' p' H1 H2.
    destruct (decide (k < length ps)).
    - rewrite lookup_app_l in H1 by lia. rewrite lookup_app_l in H2 by lia. by apply Hvs.
    - rewrite lookup_app_r in H1 by lia. rewrite lookup_app_r in H2 by lia. rewrite Hl in H1.
      assert (k = length ps) as ->.
      { apply lookup_lt_Some in H2. simpl in H2. lia. }
      rewrite Nat.sub_diag in H1, H2. simpl in H1, H2. by simplify_eq. }
  destruct Hvs as (vs & Hvl & Hvs). exists vs.*1, vs.*2.
  assert (Hboth : forall k v, vs !! k = Some v -> exists p, ps !! k = Some p).
  { intros k v Hv. apply lookup_lt_is_Some. rewrite <-Hvl. by eapply lookup_lt_Some. }
  split_and!.
  - split; [by rewrite fmap_length, Hvl, Hlen|]. intros k v Hv. rewrite list_lookup_fmap in Hv. apply fmap_Some in Hv as (w & Hw & ->).
    destruct (Hboth k w Hw) as [p Hp]. by destruct (Hvs k w p Hw Hp) as [[? ?] _].
  - split; [by rewrite <-Hs, fmap_length, Hvl, Hlen|]. intros k v Hv. rewrite list_lookup_fmap in Hv. apply fmap_Some in Hv as (w & Hw & ->).
    destruct (Hboth k w Hw) as [p Hp]. by destruct (Hvs k w p Hw Hp) as [[? ?] _].
  - apply Forall2_fmap, Forall2_same_length_lookup. split; [done|]. intros k v p Hv Hp. by destruct (Hvs k v p Hv Hp) as (_ & ? & ?).
  - apply Forall2_fmap, Forall2_same_length_lookup. split; [done|]. intros k v p Hv Hp. by destruct (Hvs k v p Hv Hp) as (_ & ? & ?).
Qed.
Lemma array_axis_py x a ax : array_axis x a ax <-> norm_axis (nd_ndim x) a = Some ax.
Proof. unfold norm_axis. rewrite py_index_Some. unfold array_axis. lia. Qed.
Lemma numeric_array_nums x :
  numeric_array x -> exists ns, mapM to_num (data (nd_arr x)) = Some ns /\ numbers (data (nd_arr x)) ns /\
    (NaN ∈ ns <-> VFloat NaN ∈ data (nd_arr x)) /\ (NaN ∈ ns -> nd_dtype x = DFloat).
Proof.
  intros [[_ Ht] Hd]. induction Ht as [|v vs Hv _ (ns & IH & Hns & Hn & Hnd)].
  - exists []. split_and!; [done|constructor| |]; [|by intros ?%elem_of_nil]. by rewrite !elem_of_nil.
  - assert (Hm : exists n, to_num v = Some n /\ (n = NaN <-> v = VFloat NaN) /\ (n = NaN -> nd_dtype x = DFloat)).
    { destruct Hd as [E|E]; rewrite E in Hv |- *; destruct v as [q| | | | |]; try done; simpl; eexists; (split; [done|]); split; try done.
      all: split; congruence. }
    destruct Hm as (n & Hm & Hmn & Hmd). exists (n :: ns). split_and!.
    + cbn [mapM]. rewrite Hm. cbn [mbind option_bind]. rewrite IH. done.
    + by constructor.
    + rewrite !elem_of_cons, <-Hn. split; intros [E|E]; [left|right|left|right]; try done; symmetry in E; symmetry; by apply Hmn.
    + rewrite elem_of_cons. intros [E|E]; [by apply Hmd|by apply Hnd].
Qed.
Lemma mask_false n1 n2 : length n1 = length n2 ->
  existsb (fun p : num * num => is_nan p.1 || is_nan p.2) (zip n1 n2) = false <-> NaN ∉ n1 /\ NaN ∉ n2.
Proof.
  revert n2. induction n1 as [|a n1 IH]; intros [|b n2] Hl; try done.
  - split; [|done]. intros _. split; apply not_elem_of_nil.
  - cbn [zip_with existsb fst snd]. rewrite !orb_false_iff, IH by (simpl in Hl; lia). rewrite !not_elem_of_cons.
    destruct a, b; simpl; naive_solver.
Qed.

Theorem correlation_total sqrt x1 x2 (axis : option (Z * nat)) :
  root_of sqrt -> numeric_array x1 -> numeric_array x2 -> nd_shape x1 = nd_shape x2 ->
  match axis with
  | None => True
  | Some (a, ax) => array_axis x1 a ax /\ (nd_ndim x1 = 1 -> a = 0%Z) /\
      ((nd_dtype x1 = DFloat /\ nd_dtype x2 = DFloat) \/ (VFloat NaN ∉ data (nd_arr x1) /\ VFloat NaN ∉ data (nd_arr x2)))
  end ->
  exists r, correlation sqrt x1 x2 (fst <$> axis) = Ok r /\
    pair_reduction (fun us vs c => no_infinity (us ++ vs) -> correlated sqrt us vs c) x1 x2 (snd <$> axis) r.
Proof.
  intros Hroot Hx1 Hx2 Hs Hax. unfold correlation.
  assert (forall x, numeric_array x -> check_numeric x = Ok ()) as Hc.
  { intros x [_ [E|E]]; unfold check_numeric; by rewrite E. }
  rewrite !Hc by done. cbn [mbind res_bind]. rewrite decide_False by (intros E; by apply E).
  destruct (numeric_array_nums x1 Hx1) as (n1 & E1 & N1 & C1 & D1). destruct (numeric_array_nums x2 Hx2) as (n2 & E2 & N2 & C2 & D2).
  rewrite E1, E2. cbn [of_opt mbind res_bind].
  assert (Hw1 : arr_wf (nd_arr x1)) by apply Hx1. assert (Hw2 : arr_wf (nd_arr x2)) by apply Hx2.
  assert (Hl : length n1 = length n2).
  { rewrite <-(Forall2_length _ _ _ N1), <-(Forall2_length _ _ _ N2). unfold arr_wf, asize in Hw1, Hw2. rewrite Hw1, Hw2. f_equal. exact Hs. }
  assert (Hwp : arr_wf (Arr (nd_shape x1) (zip n1 n2))).
  { unfold arr_wf, asize. simpl. rewrite zip_with_length, <-Hl, Nat.min_id, <-(Forall2_length _ _ _ N1). exact Hw1. }
  set (mask := existsb _ _).
  assert (Hlane : forall us vs, length us = length vs -> (mask = false -> NaN ∉ us /\ NaN ∉ vs) ->
     no_infinity (us ++ vs) -> correlated sqrt us vs ((if mask then corr_nan sqrt else corr_plain sqrt) (zip us vs))).
  { intros us vs Hluv Hm Hinf. destruct mask; [by apply corr_nan_spec|]. rewrite no_nan_flat; [by apply corr_flat_spec|].
    apply mask_false; [done|]. by apply Hm. }
  destruct axis as [[a ax]|]; cbn [fmap option_fmap option_map fst snd].
  - destruct Hax as (Hax & H1d & Hdt). rewrite decide_False by (intros [H H']; apply H'; by apply H1d).
    assert (Hst : forall x, x = x1 \/ x = x2 -> (if mask then store (nd_dtype x) (VFloat NaN) else Ok VNone) = Ok (if mask then VFloat NaN else VNone)).
    { intros x Hx. destruct mask eqn:Em; [|done]. destruct Hdt as [[F1 F2]|[F1 F2]].
      - by destruct Hx as [-> | ->]; [rewrite F1|rewrite F2].
      - rewrite <-C1 in F1. rewrite <-C2 in F2. pose proof (proj2 (mask_false n1 n2 Hl) (conj F1 F2)) as Hf.
        unfold mask in Em. simpl in Em. by rewrite Hf in Em. }
    rewrite (Hst x1), (Hst x2) by auto. cbn [mbind res_bind].
    rewrite (proj1 (array_axis_py x1 a ax) Hax). cbn [of_opt mbind res_bind].
    assert (Hlt : ax < length (nd_shape x1)) by apply Hax.
    set (f := fun ps => VFloat ((if mask then corr_nan sqrt else corr_plain sqrt) ps)).
    destruct (reduce_is_Some f (Arr (nd_shape x1) (zip n1 n2)) ax Hwp) as [b Hb].
    { by apply lookup_lt_is_Some. }
    rewrite Hb. cbn [of_opt mbind res_bind]. eexists. split; [done|].
    apply reduce_Some in Hb as (Hsb & Hwb & Hg); [|done]. simpl in Hsb, Hg.
    assert (Hcell : forall idx v, aget b idx = Some v -> exists ps, lane (Arr (nd_shape x1) (zip n1 n2)) ax (insert_at ax 0 idx) = Some ps /\
       v = f ps /\ length idx = pred (length (nd_shape x1))).
    { intros idx v Hv. assert (Hr : in_range (remove_at ax (nd_shape x1)) idx).
      { rewrite <-Hsb. apply get_is_Some; eauto. }
      rewrite (Hg idx Hr) in Hv. apply fmap_Some in Hv as (ps & Hps & ->). exists ps. split_and!; [done..|].
      rewrite (in_range_length _ _ Hr). by apply remove_at_length. }
    split_and!; [|done|done|].
    + split; [done|]. simpl. apply Forall_lookup. intros i v Hv.
      assert (Hv' : v ∈ data b) by (by eapply elem_of_list_lookup_2). apply elem_of_data in Hv' as (idx & Hidx); [|done].
      destruct (Hcell idx v Hidx) as (ps & _ & -> & _). done.
    + intros idx v Hv. destruct (Hcell idx v Hv) as (ps & Hps & -> & Hli).
      pose proof Hps as Hps'.
      apply (zip_lane (nd_arr x1) (nd_arr x2) n1 n2) in Hps' as (vs1 & vs2 & L1 & L2 & M1 & M2); [|done..|lia].
      exists vs1, vs2, ps.*1, ps.*2. eexists. split_and!; [done..|].
      intros Hinf. pose proof (Hlane ps.*1 ps.*2) as HL. rewrite zip_fst_snd in HL. apply HL; [by rewrite !fmap_length| |done].
      intros Em. unfold mask in Em. simpl in Em. apply mask_false in Em as [F1 F2]; [|done].
      assert (Hin : forall p, p ∈ ps -> p ∈ zip n1 n2).
      { intros p Hp. apply lane_Some in Hps as (n & Hn & Hlen & Hgl). apply elem_of_list_lookup in Hp as (k & Hk).
        pose proof (lookup_lt_Some _ _ _ Hk) as Hkl. rewrite Hlen in Hkl. specialize (Hgl k Hkl). rewrite Hk in Hgl.
        unfold aget in Hgl. case_decide; [|done]. by eapply elem_of_list_lookup_2. }
      split; intros Hnan; apply elem_of_list_fmap in Hnan as ([u v] & E & Hp); simpl in E; subst; apply Hin in Hp.
      * apply F1. by eapply elem_of_zip_l.
      * apply F2. by eapply elem_of_zip_r.
  - eexists. split; [done|]. split_and!; [|done|done|].
    + split; [done|]. by repeat constructor.
    + exists n1, n2. eexists. split_and!; [done..|]. intros Hinf. simpl. destruct mask eqn:Em.
      * by apply corr_flat_spec.
      * rewrite no_nan_flat by done. by apply corr_flat_spec.
Qed.
(** Symmetry. *)
Definition flip (p : num * num) : num * num := (p.2, p.1).
Lemma zip_flip n1 n2 : zip n2 n1 = flip <$> zip n1 n2.
Proof. revert n2. induction n1 as [|a n1 IH]; intros [|b n2]; try done. cbn [zip_with fmap list_fmap]. by rewrite IH. Qed.
Lemma flip_fst ps : (flip <$> ps).*1 = ps.*2.
Proof. rewrite <-list_fmap_compose. done. Qed.
Lemma flip_snd ps : (flip <$> ps).*2 = ps.*1.
Proof. rewrite <-list_fmap_compose. done. Qed.
Lemma zip_with_mul_comm l1 l2 : zip_with num_mul l1 l2 = zip_with num_mul l2 l1.
Proof. revert l2. induction l1 as [|a l1 IH]; intros [|b l2]; try done. cbn [zip_with]. by rewrite IH, num_mul_comm. Qed.
Lemma corr_ratio_sym sum sqrt l1 l2 : corr_ratio sum sqrt l1 l2 = corr_ratio sum sqrt l2 l1.
Proof. unfold corr_ratio. rewrite zip_with_mul_comm. f_equal. f_equal. apply num_mul_comm. Qed.
Lemma corr_plain_sym sqrt ps : corr_plain sqrt (flip <$> ps) = corr_plain sqrt ps.
Proof. unfold corr_plain. rewrite flip_fst, flip_snd. apply corr_ratio_sym. Qed.
Lemma corr_flat_sym sqrt ps : corr_flat sqrt (flip <$> ps) = corr_flat sqrt ps.
Proof.
  unfold corr_flat. rewrite <-corr_plain_sym. f_equal. induction ps as [|p ps IH]; [done|]. cbn [fmap list_fmap].
  destruct (is_nan p.1 || is_nan p.2) eqn:E.
  - rewrite !filter_cons_False by (unfold flip; simpl; rewrite ?(orb_comm (is_nan p.2)), E; done). done.
  - rewrite !filter_cons_True by (unfold flip; simpl; rewrite ?(orb_comm (is_nan p.2)), E; done).
    cbn [fmap list_fmap]. rewrite IH. by destruct p.
Qed.
Lemma corr_nan_sym sqrt ps : corr_nan sqrt (flip <$> ps) = corr_nan sqrt ps.
Proof.
  unfold corr_nan. rewrite corr_ratio_sym. f_equal; f_equal; rewrite <-list_fmap_compose; apply list_fmap_ext; intros _ p _;
    unfold compose, flip; simpl; by rewrite orb_comm.
Qed.
Lemma reduce_amap {A B C} (g : A -> B) (f : list B -> C) (a : arr A) ax :
  reduce f (amap g a) ax = reduce (fun l => f (g <$> l)) a ax.
Proof.
  unfold reduce, axlen. simpl. destruct (shape a !! ax); [|done]. cbn [mbind option_bind]. unfold build. f_equal.
  apply mapM_ext. intros idx. rewrite lane_amap. by destruct (lane a ax (insert_at ax 0 idx)).
Qed.
Lemma build_ext {A} sh (f g : list nat -> option A) : (forall idx, f idx = g idx) -> build sh f = build sh g.
Proof. intros H. unfold build. f_equal. by apply mapM_ext. Qed.
Theorem correlation_sym sqrt x1 x2 axis r :
  correlation sqrt x1 x2 axis = Ok r -> correlation sqrt x2 x1 axis = Ok r.
Proof.
  unfold correlation. intros H. apply bind_ok in H as (u1 & H1 & H). apply bind_ok in H as (u2 & H2 & H).
  rewrite H1, H2. cbn [mbind res_bind]. destruct (decide (nd_shape x1 <> nd_shape x2)) as [|Hs]; [done|]. apply dec_stable in Hs.
  rewrite decide_False by (intros E; by apply E). apply bind_ok in H as (n1 & N1 & H). apply bind_ok in H as (n2 & N2 & H).
  rewrite N1, N2. cbn [mbind res_bind].
  assert (Hm : existsb (fun p : num * num => is_nan p.1 || is_nan p.2) (zip n2 n1) = existsb (fun p : num * num => is_nan p.1 || is_nan p.2) (zip n1 n2)).
  { rewrite zip_flip. clear. induction (zip n1 n2) as [|p l IH]; [done|]. cbn [fmap list_fmap existsb]. rewrite IH. f_equal. apply orb_comm. }
  cbn [data] in H |- *. rewrite Hm. destruct (existsb _ (zip n1 n2)); (destruct axis as [a|]; [|rewrite <-H, zip_flip; by rewrite ?corr_flat_sym, ?corr_plain_sym]).
  - unfold nd_ndim, ndim in *. change (shape (nd_arr x1)) with (nd_shape x1) in *. change (shape (nd_arr x2)) with (nd_shape x2). rewrite <-Hs.
    destruct (decide _); [done|]. apply bind_ok in H as (s1 & S1 & H). apply bind_ok in H as (s2 & S2 & H). rewrite S1, S2. cbn [mbind res_bind].
    apply bind_ok in H as (ax & Ha & H). rewrite Ha. cbn [mbind res_bind]. rewrite <-H, zip_flip.
    change (Arr (nd_shape x1) (flip <$> zip n1 n2)) with (amap flip (Arr (nd_shape x1) (zip n1 n2))). rewrite reduce_amap. do 2 f_equal. unfold reduce.
    destruct (axlen _ ax); [|done]. apply build_ext. intros idx. destruct (lane _ ax _); [|done]. cbn [fmap option_fmap option_map]. by rewrite corr_nan_sym.
  - unfold nd_ndim, ndim in *. change (shape (nd_arr x1)) with (nd_shape x1) in *. change (shape (nd_arr x2)) with (nd_shape x2). rewrite <-Hs.
    destruct (decide _); [done|]. cbn [mbind res_bind] in H |- *.
    apply bind_ok in H as (ax & Ha & H). rewrite Ha. cbn [mbind res_bind]. rewrite <-H, zip_flip.
    change (Arr (nd_shape x1) (flip <$> zip n1 n2)) with (amap flip (Arr (nd_shape x1) (zip n1 n2))). rewrite reduce_amap. do 2 f_equal. unfold reduce.
    destruct (axlen _ ax); [|done]. apply build_ext. intros idx. destruct (lane _ ax _); [|done]. cbn [fmap option_fmap option_map]. by rewrite corr_plain_sym.
Qed.
(** Bounds. *)
Definition qdot (l1 l2 : list Qc) : Qc := Qc_total (zip_with Qcmult l1 l2).
Lemma qdot_cons a b l1 l2 : qdot (a :: l1) (b :: l2) = (a * b + qdot l1 l2)%Qc.
Proof. done. Qed.
Lemma qdot_self_nonneg l : (0 <= qdot l l)%Qc.
Proof.
  induction l as [|a l IH]; [done|]. rewrite qdot_cons. rewrite <-(Qcplus_0_l 0). apply Qcplus_le_compat; [apply Qc_square|done].
Qed.
Lemma qdot_self_0 l : qdot l l = 0%Qc -> Forall (fun a => a = 0%Qc) l.
Proof.
  induction l as [|a l IH]; [done|]. rewrite qdot_cons. intros H.
  assert (Ha : (a * a)%Qc = 0%Qc).
  { apply Qcle_antisym; [|apply Qc_square]. rewrite <-H. rewrite <-(Qcplus_0_r (a * a)) at 1. apply Qcplus_le_compat; [apply Qcle_refl|apply qdot_self_nonneg]. }
  constructor; [by apply Qcmult_integral in Ha as [?|?]|]. apply IH. by rewrite Ha, Qcplus_0_l in H.
Qed.
Lemma qdot_combine a p l1 l2 : length l1 = length l2 ->
  qdot (zip_with (fun x y => a * y - p * x)%Qc l1 l2) (zip_with (fun x y => a * y - p * x)%Qc l1 l2) =
  (a * a * qdot l2 l2 - (1 + 1) * a * p * qdot l1 l2 + p * p * qdot l1 l1)%Qc.
Proof.
  revert l2. induction l1 as [|x l1 IH]; intros [|y l2] Hl; try done; [unfold qdot; simpl; ring|].
  cbn [zip_with]. rewrite !qdot_cons, IH by (simpl in Hl; lia). ring.
Qed.
Lemma qdot_zero l1 l2 : Forall (fun a => a = 0%Qc) l1 -> qdot l1 l2 = 0%Qc.
Proof.
  intros H. revert l2. induction H as [|a l1 -> _ IH]; intros [|b l2]; try done. rewrite qdot_cons, IH. ring.
Qed.
Lemma qdot_comm l1 l2 : qdot l1 l2 = qdot l2 l1.
Proof. unfold qdot. f_equal. revert l2. induction l1 as [|a l1 IH]; intros [|b l2]; try done. cbn [zip_with]. rewrite IH. f_equal. ring. Qed.
Lemma cauchy_schwarz l1 l2 : length l1 = length l2 -> (qdot l1 l2 * qdot l1 l2 <= qdot l1 l1 * qdot l2 l2)%Qc.
Proof.
  intros Hl. destruct (Qc_eq_dec (qdot l1 l1) 0%Qc) as [E|E].
  - pose proof (qdot_self_0 l1 E) as Hz. rewrite (qdot_zero l1 l2 Hz), E, !Qcmult_0_l. apply Qcle_refl.
  - assert (Hp : (0 < qdot l1 l1)%Qc).
    { destruct (Qcle_lt_or_eq _ _ (qdot_self_nonneg l1)) as [?|E2]; [done|by rewrite <-E2 in E]. }
    pose proof (qdot_self_nonneg (zip_with (fun x y => qdot l1 l1 * y - qdot l1 l2 * x)%Qc l1 l2)) as H.
    rewrite qdot_combine in H by done.
    assert (H2 : (0 <= qdot l1 l1 * (qdot l1 l1 * qdot l2 l2 - qdot l1 l2 * qdot l1 l2))%Qc).
    { eapply Qcle_trans; [exact H|]. match goal with |- (?a <= ?b)%Qc => replace a with b by ring end. apply Qcle_refl. }
    apply (Qc_le_mul_pos _ _ (qdot l1 l1) Hp).
    rewrite <-(Qcplus_0_l (qdot l1 l2 * qdot l1 l2 * qdot l1 l1)).
    replace (qdot l1 l1 * qdot l2 l2 * qdot l1 l1)%Qc with
      (qdot l1 l1 * (qdot l1 l1 * qdot l2 l2 - qdot l1 l2 * qdot l1 l2) + qdot l1 l2 * qdot l1 l2 * qdot l1 l1)%Qc by ring.
    apply Qcplus_le_compat; [done|apply Qcle_refl].
Qed.
Lemma dot_of_fin l1 l2 : dot_of (Fin <$> l1) (Fin <$> l2) = Fin (qdot l1 l2).
Proof.
  unfold dot_of, qdot. rewrite <-num_total_fin. f_equal. revert l2. induction l1 as [|a l1 IH]; intros [|b l2]; try done.
  cbn [fmap list_fmap zip_with]. by rewrite IH.
Qed.
Lemma deviations_fin qs : qs <> [] -> exists m, deviations (Fin <$> qs) = Fin <$> ((fun q => q - m)%Qc <$> qs) /\ (m * Qc_of_Z (Z.of_nat (length qs)) = Qc_total qs)%Qc.
Proof.
  intros Hne. destruct (mean_of_fin qs Hne) as (m & Hm & Hs). exists m. split; [|done]. unfold deviations. rewrite Hm, <-!list_fmap_compose. done.
Qed.
(** What [correlated] is in terms of rationals. *)
Lemma correlated_fin sqrt us vs c :
  length us = length vs -> no_infinity (us ++ vs) -> correlated sqrt us vs c -> both_present us vs <> [] ->
  exists qs rs m1 m2, (both_present us vs).*1 = Fin <$> qs /\ (both_present us vs).*2 = Fin <$> rs /\ length qs = length rs /\
    (m1 * Qc_of_Z (Z.of_nat (length qs)) = Qc_total qs)%Qc /\ (m2 * Qc_of_Z (Z.of_nat (length rs)) = Qc_total rs)%Qc /\
    let d1 := (fun q => q - m1)%Qc <$> qs in let d2 := (fun q => q - m2)%Qc <$> rs in
    c = num_div (Fin (qdot d1 d2)) (sqrt (Fin (qdot d1 d1 * qdot d2 d2)%Qc)).
Proof.
  intros Hl Hinf Hc Hne. destruct (both_present_finite us vs Hl Hinf) as (qs & rs & Hbp & Hlen).
  unfold correlated in Hc. rewrite decide_False in Hc by done. rewrite Hbp, fst_zip, snd_zip in Hc by (rewrite !fmap_length; lia).
  assert (Hq : qs <> []) by (intros ->; by rewrite Hbp in Hne). assert (Hr : rs <> []) by (by destruct qs, rs).
  destruct (deviations_fin qs Hq) as (m1 & H1 & M1). destruct (deviations_fin rs Hr) as (m2 & H2 & M2).
  exists qs, rs, m1, m2. rewrite Hbp, fst_zip, snd_zip by (rewrite !fmap_length; lia). split_and!; [done..|].
  cbv zeta. rewrite H1, H2, !dot_of_fin in Hc. exact Hc.
Qed.
Lemma square_le_1 q : (q * q <= 1)%Qc -> (-(1) <= q <= 1)%Qc.
Proof.
  intros H. split; apply Qcnot_lt_le; intros Hq; apply Qcle_not_lt in H; apply H.
  - apply (Qclt_minus_iff q (-(1))) in Hq. assert (Hp : (1 < - q)%Qc).
    { apply Qclt_minus_iff. by replace (- q + - (1))%Qc with (- (1) + - q)%Qc by ring. }
    replace (q * q)%Qc with ((- q) * (- q))%Qc by ring. eapply Qclt_trans; [exact Hp|]. rewrite <-(Qcmult_1_l (- q)) at 1.
    apply Qcmult_lt_compat_r; [|done]. by eapply Qclt_trans; [|exact Hp].
  - eapply Qclt_trans; [exact Hq|]. rewrite <-(Qcmult_1_l q) at 1. apply Qcmult_lt_compat_r; [|done]. by eapply Qclt_trans; [|exact Hq].
Qed.
Theorem correlated_bounds sqrt us vs q :
  root_above sqrt -> length us = length vs -> no_infinity (us ++ vs) -> correlated sqrt us vs (Fin q) -> (-(1) <= q <= 1)%Qc.
Proof.
  intros Hs Hl Hinf Hc. destruct (decide (both_present us vs = [])) as [E|E].
  { unfold correlated in Hc. by rewrite decide_True in Hc. }
  destruct (correlated_fin sqrt us vs _ Hl Hinf Hc E) as (qs & rs & m1 & m2 & _ & _ & Hlen & _ & _ & Hq). cbv zeta in Hq.
  set (d1 := _ <$> qs) in Hq. set (d2 := _ <$> rs) in Hq.
  assert (Hcs : (qdot d1 d2 * qdot d1 d2 <= qdot d1 d1 * qdot d2 d2)%Qc) by (apply cauchy_schwarz; unfold d1, d2; by rewrite !fmap_length).
  destruct (Hs (qdot d1 d1 * qdot d2 d2)%Qc) as (r & Hr & Hr0 & Hrr).
  { eapply Qcle_trans; [|exact Hcs]. apply Qc_square. }
  rewrite Hr in Hq. cbn [num_div] in Hq. case_decide as Er.
  { unfold inf_sign in Hq. by repeat destruct (Qc_ltb _ _). }
  assert (Hqr : (q * r)%Qc = qdot d1 d2).
  { injection Hq as ->. unfold Qcdiv. by rewrite <-Qcmult_assoc, (Qcmult_comm (/ r)), Qcmult_inv_r, Qcmult_1_r by done. }
  assert (Hp : (0 < r * r)%Qc).
  { destruct (Qcle_lt_or_eq _ _ (Qc_square r)) as [?|E2]; [done|]. symmetry in E2. by apply Qcmult_integral in E2 as [?|?]. }
  apply square_le_1. apply (Qc_le_mul_pos _ _ (r * r)%Qc Hp). replace (q * q * (r * r))%Qc with ((q * r) * (q * r))%Qc by ring.
  rewrite Hqr, Qcmult_1_l. by eapply Qcle_trans.
Qed.
Lemma mean_of_equal qs m a :
  (m * Qc_of_Z (Z.of_nat (length qs)) = Qc_total qs)%Qc -> qs <> [] -> Forall (fun q => q = a) qs -> m = a.
Proof.
  intros Hm Hne Ha. assert (Ht : Qc_total qs = (a * Qc_of_Z (Z.of_nat (length qs)))%Qc).
  { clear -Ha. induction Ha as [|q qs -> _ IH]; [change (0 = a * Qc_of_Z 0)%Qc; rewrite CovFacts.Qc_of_Z_0; ring|]. change (a + Qc_total qs = a * Qc_of_Z (Z.of_nat (length (a :: qs))))%Qc.
    rewrite IH. cbn [length]. rewrite Nat2Z.inj_succ, <-Z.add_1_l, Z2Qc_inj_add. change (Qc_of_Z 1) with 1%Qc || replace (Qc_of_Z 1) with 1%Qc by (by apply Qc_is_canon). ring. }
  rewrite Ht in Hm.
  assert (Hp : (0 < Qc_of_Z (Z.of_nat (length qs)))%Qc) by (apply Qc_of_nat_pos; by destruct qs; [|simpl; lia]).
  assert (Hnz : Qc_of_Z (Z.of_nat (length qs)) <> 0%Qc) by (intros E; rewrite E in Hp; by apply Qclt_not_eq in Hp).
  apply (f_equal (fun t => t * / Qc_of_Z (Z.of_nat (length qs)))%Qc) in Hm. by rewrite <-!Qcmult_assoc, !Qcmult_inv_r, !Qcmult_1_r in Hm by done.
Qed.
Lemma deviations_zero qs m :
  (m * Qc_of_Z (Z.of_nat (length qs)) = Qc_total qs)%Qc -> qs <> [] ->
  qdot ((fun q => q - m)%Qc <$> qs) ((fun q => q - m)%Qc <$> qs) = 0%Qc <-> all_equal (Fin <$> qs).
Proof.
  intros Hm Hne. split.
  - intros H. apply qdot_self_0 in H. rewrite Forall_fmap in H. intros a b Ha Hb.
    apply elem_of_list_fmap in Ha as (x & -> & Hx). apply elem_of_list_fmap in Hb as (y & -> & Hy). rewrite Forall_forall in H.
    apply H in Hx, Hy. simpl in Hx, Hy. f_equal. replace x with ((x - m) + m)%Qc by ring. replace y with ((y - m) + m)%Qc by ring. by rewrite Hx, Hy.
  - intros H. destruct qs as [|a qs]; [done|]. assert (Ha : Forall (fun q => q = a) (a :: qs)).
    { apply Forall_forall. intros x Hx. assert (Fin x = Fin a) as [=]; [|done]. apply H; apply elem_of_list_fmap; eexists; (split; [done|]); [done|by left]. }
    pose proof (mean_of_equal _ _ _ Hm Hne Ha) as ->. apply qdot_zero. rewrite Forall_fmap. eapply Forall_impl; [exact Ha|].
    intros x ->. simpl. ring.
Qed.
Theorem correlated_constant sqrt us vs c :
  root_of sqrt -> length us = length vs -> no_infinity (us ++ vs) -> correlated sqrt us vs c ->
  all_equal (both_present us vs).*1 \/ all_equal (both_present us vs).*2 -> c = NaN.
Proof.
  intros Hs Hl Hinf Hc Heq. destruct (decide (both_present us vs = [])) as [E|E].
  { unfold correlated in Hc. by rewrite decide_True in Hc. }
  destruct (correlated_fin sqrt us vs _ Hl Hinf Hc E) as (qs & rs & m1 & m2 & B1 & B2 & Hlen & M1 & M2 & ->). cbv zeta. rewrite B1, B2 in Heq.
  assert (Hq : qs <> []) by (intros ->; by destruct (both_present us vs)). assert (Hr : rs <> []) by (by destruct qs, rs).
  assert (Hroot : sqrt (Fin 0%Qc) = Fin 0%Qc) by (specialize (Hs 0%Qc ltac:(done)); by rewrite Qcmult_0_l in Hs).
  destruct Heq as [H|H].
  - apply (deviations_zero qs m1 M1 Hq) in H. pose proof (qdot_self_0 _ H) as Hz. rewrite (qdot_zero _ _ Hz), H, Qcmult_0_l, Hroot. done.
  - apply (deviations_zero rs m2 M2 Hr) in H. pose proof (qdot_self_0 _ H) as Hz. rewrite qdot_comm, (qdot_zero _ _ Hz), H, Qcmult_0_r, Hroot. done.
Qed.
Theorem correlated_varies sqrt us vs c :
  root_above sqrt -> length us = length vs -> no_infinity (us ++ vs) -> correlated sqrt us vs c ->
  ~ all_equal (both_present us vs).*1 -> ~ all_equal (both_present us vs).*2 -> exists q, c = Fin q.
Proof.
  intros Hs Hl Hinf Hc N1 N2. destruct (decide (both_present us vs = [])) as [E|E].
  { exfalso. apply N1. rewrite E. by intros a b ?%elem_of_nil. }
  destruct (correlated_fin sqrt us vs _ Hl Hinf Hc E) as (qs & rs & m1 & m2 & B1 & B2 & Hlen & M1 & M2 & ->). cbv zeta. rewrite B1 in N1. rewrite B2 in N2.
  assert (Hq : qs <> []) by (intros ->; by destruct (both_present us vs)). assert (Hr : rs <> []) by (by destruct qs, rs).
  rewrite <-(deviations_zero qs m1 M1 Hq) in N1. rewrite <-(deviations_zero rs m2 M2 Hr) in N2.
  set (d1 := _ <$> qs) in *. set (d2 := _ <$> rs) in *.
  assert (Hnn : (0 <= qdot d1 d1 * qdot d2 d2)%Qc).
  { rewrite <-(Qcmult_0_l (qdot d2 d2)). apply Qcmult_le_compat_r; apply qdot_self_nonneg. }
  destruct (Hs _ Hnn) as (r & -> & Hr0 & Hrr). cbn [num_div]. case_decide as Er; [|eauto]. exfalso.
  rewrite Er, Qcmult_0_l in Hrr. pose proof (Qcle_antisym _ _ Hrr Hnn) as E0. by apply Qcmult_integral in E0 as [?|?].
Qed.
Lemma both_present_self us : (both_present us us).*1 = present us /\ (both_present us us).*2 = present us.
Proof.
  unfold both_present, present. induction us as [|u us [IH1 IH2]]; [done|]. cbn [zip_with]. destruct (decide (u = NaN)) as [->|Hu].
  - rewrite !filter_cons_False by (simpl; tauto). done.
  - rewrite !filter_cons_True by (simpl; tauto). cbn [fmap list_fmap fst snd]. by rewrite IH1, IH2.
Qed.
Theorem correlated_self sqrt us c :
  root_of sqrt -> no_infinity us -> correlated sqrt us us c ->
  (all_equal (present us) -> c = NaN) /\ (~ all_equal (present us) -> c = Fin 1%Qc).
Proof.
  intros Hs Hinf Hc. assert (Hinf2 : no_infinity (us ++ us)) by (intros n [?|?]%elem_of_app; by apply Hinf).
  destruct (both_present_self us) as [P1 P2]. split.
  - intros H. eapply correlated_constant; [exact Hs|done|exact Hinf2|exact Hc|]. left. by rewrite P1.
  - intros H. assert (E : both_present us us <> []).
    { intros E. apply H. rewrite <-P1, E. by intros a b ?%elem_of_nil. }
    destruct (correlated_fin sqrt us us _ eq_refl Hinf2 Hc E) as (qs & rs & m1 & m2 & B1 & B2 & Hlen & M1 & M2 & ->). cbv zeta.
    rewrite P1 in B1. rewrite P2, B1 in B2. assert (rs = qs) as ->.
    { assert (Hi : Inj eq eq Fin) by (by intros ? ? [=]). symmetry. by apply (inj (fmap (M := list) Fin)). }
    assert (Hq : qs <> []) by (intros ->; rewrite B1 in H; apply H; by intros a b ?%elem_of_nil).
    pose proof (deviations_zero qs m1 M1 Hq) as Hz. rewrite <-B1 in Hz.
    assert (m2 = m1) as ->.
    { assert (Hp : (0 < Qc_of_Z (Z.of_nat (length qs)))%Qc) by (apply Qc_of_nat_pos; by destruct qs; [|simpl; lia]).
      assert (Hnz : Qc_of_Z (Z.of_nat (length qs)) <> 0%Qc) by (intros E2; rewrite E2 in Hp; by apply Qclt_not_eq in Hp).
      rewrite <-M1 in M2. apply (f_equal (fun t => t * / Qc_of_Z (Z.of_nat (length qs)))%Qc) in M2. by rewrite <-!Qcmult_assoc, !Qcmult_inv_r, !Qcmult_1_r in M2 by done. }
    rewrite Hs by apply qdot_self_nonneg. cbn [num_div]. rewrite decide_False by (intros E2; by apply H, Hz). f_equal. unfold Qcdiv. apply Qcmult_inv_r. intros E2; by apply H, Hz.
Qed.
(** There is a square root as the theorems ask for. *)
Definition rat_sqrt (n : num) : num :=
  match n with
  | Fin q =>
      let r := Q2Qc (Z.sqrt (Qnum (this q)) # Pos.sqrt (Qden (this q))) in
      if decide ((r * r)%Qc = q) then Fin r else Fin (q + 1)%Qc
  | n => n
  end.
Lemma rat_sqrt_root : root_of rat_sqrt.
Proof.
  intros q Hq. destruct q as [[n d] Hc]. set (q := {| this := n # d; canon := Hc |}) in *.
  assert (Hn : (0 <= n)%Z).
  { unfold Qcle, Qle in Hq. simpl in Hq. lia. }
  pose proof (Qred_identity2 _ Hc) as Hg. simpl in Hg.
  assert (Hthis : this (q * q)%Qc = (n * n # d * d)).
  { change (Qred ((n # d) * (n # d)) = (n * n # d * d)). apply Qred_identity. simpl.
    apply Znumtheory.Zgcd_1_rel_prime. rewrite Pos2Z.inj_mul.
    assert (Hr : Znumtheory.rel_prime n (Z.pos d)) by (by apply Znumtheory.Zgcd_1_rel_prime).
    assert (Hr2 : Znumtheory.rel_prime (Z.pos d) (n * n)).
    { apply Znumtheory.rel_prime_mult; by apply Znumtheory.rel_prime_sym. }
    apply Znumtheory.rel_prime_mult; by apply Znumtheory.rel_prime_sym. }
  unfold rat_sqrt. rewrite Hthis. cbn [Qnum Qden].
  assert (Z.sqrt (n * n) = n) as -> by (by apply Z.sqrt_square).
  assert (Pos.sqrt (d * d) = d) as ->.
  { pose proof (Z.sqrt_square (Z.pos d) ltac:(lia)) as H. simpl in H. injection H as H. done. }
  assert (Q2Qc (n # d) = q) as -> by (apply Qc_is_canon; simpl; by rewrite Qred_correct).
  by rewrite decide_True.
Qed.
Lemma rat_sqrt_above : root_above rat_sqrt.
Proof.
  intros q Hq. unfold rat_sqrt. case_decide as E.
  - eexists. split; [done|]. split; [|rewrite E; apply Qcle_refl].
    pose proof (Z.sqrt_nonneg (Qnum q)) as Hn. clear E Hq. revert Hn. generalize (Z.sqrt (Qnum q)) (Pos.sqrt (Qden q)). intros z p Hz.
    change (0 <= Qred (z # p))%Q. rewrite Qred_correct. unfold Qle. cbn [Qnum Qden]. lia.
  - exists (q + 1)%Qc. split; [done|]. assert (H1 : (0 <= q + 1)%Qc).
    { rewrite <-(Qcplus_0_l 0). by apply Qcplus_le_compat. }
    split; [done|]. replace ((q + 1) * (q + 1))%Qc with (q + (q * q + q + 1))%Qc by ring.
    rewrite <-(Qcplus_0_r q) at 1. apply Qcplus_le_compat; [apply Qcle_refl|].
    rewrite <-(Qcplus_0_l 0). apply Qcplus_le_compat; [|done]. rewrite <-(Qcplus_0_l 0). apply Qcplus_le_compat; [apply Qc_square|done].
Qed.
(** * Bounds of the decayed rank *)
Theorem decay_ranked_bounds w ns q :
  (forall k, (0 < w k)%Qc) -> decay_ranked w ns (Fin q) ->
  (-(1) <= q <= 1)%Qc /\ exists ms n, ns = ms ++ [n] /\
  (q = 1%Qc <-> forall m, m ∈ ms -> m <> NaN -> num_lt m n) /\ (q = (-(1))%Qc <-> forall m, m ∈ ms -> m <> NaN -> num_lt n m).
Proof.
  intros Hw (n & Hn & H). case_decide as E; [done|]. case_decide; [done|]. destruct H as (q' & [= <-] & H).
  apply last_Some in Hn as [ms ->]. rewrite app_length, Nat.add_sub, take_app in H. unfold decayed in H. rewrite app_length, Nat.add_sub in H.
  assert (Hp : Forall (fun w => 0 < w)%Qc ((fun k => w (length ms - k)) <$> seq 0 (length ms))).
  { apply Forall_fmap, Forall_forall. intros k _. apply Hw. }
  split; [by eapply weighted_rank_bounds|]. exists ms, n. split; [done|].
  destruct (weighted_rank_top n ms _ q Hp) as [H1 H2]; [by rewrite fmap_length, seq_length|done|]. split; [done|by apply H2].
Qed.
Theorem weights_decrease exp d j k wj wk :
  (forall a b, (a < b)%Qc -> num_lt (exp (Fin a)) (exp (Fin b))) -> (0 < d)%Qc -> j < k ->
  weight_of exp d j wj -> weight_of exp d k wk -> (wk < wj)%Qc.
Proof.
  intros He Hd Hjk [Hj _] [Hk _]. assert (H : num_lt (exp (Fin (- d * Qc_of_Z (Z.of_nat k))%Qc)) (exp (Fin (- d * Qc_of_Z (Z.of_nat j))%Qc))).
  { apply He. apply Qclt_minus_iff.
    replace (- d * Qc_of_Z (Z.of_nat j) + - (- d * Qc_of_Z (Z.of_nat k)))%Qc with ((Qc_of_Z (Z.of_nat k) + - Qc_of_Z (Z.of_nat j)) * d)%Qc by ring.
    rewrite <-(Qcmult_0_l d). apply Qcmult_lt_compat_r; [done|]. rewrite <-Z2Qc_inj_opp, <-Z2Qc_inj_add.
    replace (Z.of_nat k + - Z.of_nat j)%Z with (Z.of_nat (k - j)) by lia. apply Qc_of_nat_pos. lia. }
  rewrite Hj, Hk in H. done.
Qed.
(** * Examples and refutations *)
(** A function that halves with every step in the place of exp. *)
Definition halving (n : num) : num :=
  match n with Fin q => Fin (Qcpower (Q2Qc (1 # 2)) (Z.to_nat (- Qc_trunc q))) | n => n end.
Lemma halving_weights k : weight_of halving 1 k (Qcpower (Q2Qc (1 # 2)) k).
Proof.
  split.
  - replace (- (1) * Qc_of_Z (Z.of_nat k))%Qc with (Qc_of_Z (- Z.of_nat k)) by (rewrite Z2Qc_inj_opp; ring).
    unfold halving. do 2 f_equal. unfold Qc_trunc. assert (E : this (Qc_of_Z (- Z.of_nat k)) = (- Z.of_nat k # 1)) by done.
    rewrite E. cbn [Qnum Qden]. rewrite Z.quot_1_r. lia.
  - induction k as [|k IH]; [done|]. cbn [Qcpower]. rewrite <-(Qcmult_0_l (Qcpower (Q2Qc (1 # 2)) k)). by apply Qcmult_lt_compat_r.
Qed.
Theorem keep_x_infinity : exists y z, valid y /\ ldtype y = DFloat /\ lndim y = 2 /\
  keep_x y (Some CGt) (VInt 0) true = Ok z /\
  exists ls v, cell y ls = Some v /\ cmp_holds CGt v (VInt 0) /\ cell z ls = None.
Proof.
  exists (Larry (Nda DFloat (Arr [2; 1] [VFloat PInf; VFloat (num_of_Z 3)])) [[LInt 1; LInt 2]; [LInt 7]]), (Larry (Nda DFloat (Arr [1; 1] [VFloat (num_of_Z 3)])) [[LInt 2]; [LInt 7]]).
  split_and!; [..|exists [LInt 1; LInt 7], (VFloat PInf); split_and!].
  - refine (bool_decide_unpack _ _). vm_compute. exact I.
  - done.
  - done.
  - refine (bool_decide_unpack _ _). vm_compute. exact I.
  - done.
  - by exists PInf, (num_of_Z 0).
  - done.
Qed.
Theorem keep_x_int y op value vac :
  valid y -> ldtype y = DInt -> is_Some (to_num value) -> keep_x y (Some op) value vac = Err ValueError.
Proof.
  intros Hy Hd Hn. unfold keep_x. destruct (_ && _); [done|]. cbn [of_opt mbind res_bind].
  destruct (compare_scalar op y value Hy) as (z0 & Hz0 & Hv0 & Hl0 & Hd0 & Hc0).
  { left. split; [|done]. unfold arithmetic. tauto. }
  apply compare_np in Hz0 as (a & Ha & Hcmp). rewrite Ha. cbn [mbind res_bind]. rewrite Hcmp. cbn [mbind res_bind]. rewrite Hd.
  unfold blank, putmask_scalar. change (nd_dtype (lx y)) with (ldtype y). by rewrite Hd.
Qed.
Theorem keep_x_bool : exists y z ls v, valid y /\ ldtype y = DBool /\
  keep_x y (Some CEq) (VBool true) false = Ok z /\
  cell y ls = Some v /\ ~ cmp_holds CEq v (VBool true) /\ cell z ls = Some (VBool true).
Proof.
  exists (Larry (Nda DBool (Arr [2] [VBool true; VBool false])) [[LInt 1; LInt 2]]), (Larry (Nda DBool (Arr [2] [VBool true; VBool true])) [[LInt 1; LInt 2]]), [LInt 2], (VBool false).
  split_and!.
  - refine (bool_decide_unpack _ _). vm_compute. exact I.
  - done.
  - refine (bool_decide_unpack _ _). vm_compute. exact I.
  - done.
  - intros (n1 & n2 & H1 & H2 & H). injection H1 as <-. injection H2 as <-. apply num_eqb_same in H. by vm_compute in H.
  - done.
Qed.
Theorem correlation_int : exists x1 x2, numeric_array x1 /\ numeric_array x2 /\ nd_shape x1 = nd_shape x2 /\
  forall sqrt, correlation sqrt x1 x2 (Some 0%Z) = Err ValueError.
Proof.
  exists (Nda DInt (Arr [2] [VInt 1; VInt 2])), (Nda DFloat (Arr [2] [VFloat NaN; VFloat (num_of_Z 2)])).
  split_and!; [| |done|done]; (split; [split; [done|by repeat constructor]|]); [by right|by left].
Qed.

Lemma ufunc_error f y : valid y -> ldtype y <> DObj ->
  (ldtype y = DStr <-> larry_ufunc f y = Err TypeError) /\ ((exists z, larry_ufunc f y = Ok z) <-> arithmetic (ldtype y)).
Proof.
  intros Hv Ho. unfold larry_ufunc, arithmetic. destruct (ldtype y); (split; [|split]); try done; try (by eauto); try (by intros [z ?]).
  all: by intros [[?|?]|?] || intros; naive_solver.
Qed.
