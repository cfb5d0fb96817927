(** Proofs about cov. *)
From Verif Require Import Create NumFacts CutFacts StackFacts.

Lemma number_at_fun y ls n m : number_at y ls n -> number_at y ls m -> n = m.
Proof. unfold number_at. intros (v & Hv & Hn) (w & Hw & Hm). congruence. Qed.

Lemma num_of_nat_S n : num_of_nat (S n) = num_add (num_of_Z 1) (num_of_nat n).
Proof. unfold num_of_nat. rewrite num_add_Z. f_equal. lia. Qed.
Lemma num_of_nat_lt2 n : num_ltb (num_of_nat n) (num_of_Z 2) = bool_decide (n < 2).
Proof.
  apply eq_true_iff_eq. rewrite num_ltb_lt, bool_decide_eq_true. unfold num_of_nat. rewrite num_of_Z_lt. lia.
Qed.
Lemma Qc_of_Z_0 : Qc_of_Z 0 = 0%Qc.
Proof. by apply Qc_is_canon. Qed.
Lemma mul_0_not_inf n : is_inf n = false -> n <> NaN -> num_mul n (num_of_Z 0) = num_of_Z 0.
Proof.
  destruct n; try done. intros _ _. unfold num_of_Z. simpl. f_equal.
  rewrite Qc_of_Z_0. apply Qcmult_0_r.
Qed.
Lemma mul_0_0 : num_mul (num_of_Z 0) (num_of_Z 0) = num_of_Z 0.
Proof. by apply mul_0_not_inf. Qed.
Lemma is_nan_iff n : is_nan n = true <-> n = NaN.
Proof. by destruct n. Qed.

Lemma dot_sym u v : dot u v = dot v u.
Proof.
  unfold dot. f_equal. revert v. induction u as [|a u IH]; intros [|b v]; simpl; [done..|]. by rewrite num_mul_comm, IH.
Qed.
Lemma bool_dot_sym u v : bool_dot u v = bool_dot v u.
Proof.
  unfold bool_dot. replace (zip_with num_mul u v) with (zip_with num_mul v u); [done|].
  revert v. induction u as [|a u IH]; intros [|b v]; simpl; [done..|]. by rewrite num_mul_comm, IH.
Qed.

(** The two dot products of covMissing over the common columns. *)
Lemma pair_sums y a b cols us vs :
  Forall2 (fun c u => number_at y [a; c] u) cols us -> Forall2 (fun c v => number_at y [b; c] v) cols vs ->
  exists cs ps, kept (fun c => ~ number_at y [a; c] NaN /\ ~ number_at y [b; c] NaN) cols cs /\
  Forall2 (fun c p => exists na nb, number_at y [a; c] na /\ number_at y [b; c] nb /\ p = num_mul na nb) cs ps /\
  dot (map is_present us) (map is_present vs) = num_of_nat (length cs) /\
  (no_inf_opposite_nan y a b -> dot (map nan_to_0 us) (map nan_to_0 vs) = num_total ps).
Proof.
  intros Hu. revert vs. induction Hu as [|c u cols us Hcu Hu IH]; intros vs Hv; inversion Hv as [|? v ? vs' Hcv Hv']; subst.
  - exists [], []. split_and!; [constructor|constructor|done|done].
  - destruct (IH vs' Hv') as (cs & ps & Hk & Hps & Hlen & Hsum).
    destruct (is_nan u) eqn:Eu; [|destruct (is_nan v) eqn:Ev].
    + pose proof (proj1 (is_nan_iff u) Eu) as ->. exists cs, ps. split_and!; [|done| |].
      * constructor; [tauto|done].
      * cbn [map]. unfold dot in *. cbn [zip_with foldr]. rewrite Hlen. unfold is_present at 1. simpl is_nan. cbv iota.
        replace (num_mul (num_of_Z 0) (is_present v)) with (num_of_Z 0) by (unfold is_present; destruct (is_nan v); by rewrite num_mul_Z).
        apply num_add_0_l.
      * intros Hinf. cbn [map]. unfold dot in *. cbn [zip_with foldr]. rewrite (Hsum Hinf). unfold nan_to_0 at 1. simpl is_nan. cbv iota.
        replace (num_mul (num_of_Z 0) (nan_to_0 v)) with (num_of_Z 0); [apply num_add_0_l|].
        unfold nan_to_0. destruct (is_nan v) eqn:Ev; [by rewrite num_mul_Z|].
        rewrite num_mul_comm, mul_0_not_inf; [done| |by intros ->].
        destruct (is_inf v) eqn:Ei; [|done]. destruct (Hinf c v Ei) as [_ Hx]. exfalso. apply Hx. done.
    + pose proof (proj1 (is_nan_iff v) Ev) as ->. exists cs, ps. split_and!; [|done| |].
      * constructor; [tauto|done].
      * cbn [map]. unfold dot in *. cbn [zip_with foldr]. rewrite Hlen. unfold is_present. rewrite Eu. simpl is_nan. cbv iota.
        rewrite num_mul_Z. apply num_add_0_l.
      * intros Hinf. cbn [map]. unfold dot in *. cbn [zip_with foldr]. rewrite (Hsum Hinf). unfold nan_to_0. rewrite Eu. simpl is_nan. cbv iota.
        rewrite mul_0_not_inf; [apply num_add_0_l| |by intros ->].
        destruct (is_inf u) eqn:Ei; [|done]. destruct (Hinf c u Ei) as [Hx _]. exfalso. apply Hx. done.
    + exists (c :: cs), (num_mul u v :: ps). split_and!.
      * constructor; [|done]. split; intros Hn.
        -- pose proof (number_at_fun _ _ _ _ Hn Hcu) as <-. done.
        -- pose proof (number_at_fun _ _ _ _ Hn Hcv) as <-. done.
      * constructor; [eauto|done].
      * cbn [map]. unfold dot in *. cbn [zip_with foldr]. rewrite Hlen. unfold is_present. rewrite Eu, Ev. rewrite num_mul_Z. simpl length.
        by rewrite num_of_nat_S.
      * intros Hinf. cbn [map]. unfold dot in *. cbn [zip_with foldr]. rewrite (Hsum Hinf). unfold nan_to_0. by rewrite Eu, Ev.
Qed.

Lemma kept_fun P l l1 l2 : kept P l l1 -> kept P l l2 -> l1 = l2.
Proof. intros H. revert l2. induction H; intros l2 H2; inversion H2; subst; try done; f_equal; auto. Qed.
Lemma common_fun y a b c1 c2 : common_columns y a b c1 -> common_columns y a b c2 -> c1 = c2.
Proof. intros (l & Hl & H1) (l' & Hl' & H2). simplify_eq. by eapply kept_fun. Qed.

(** Nonnegative numbers. *)
Lemma Qc_square q : (0 <= q * q)%Qc.
Proof.
  destruct (Qc_cases q) as [H|[->|H]].
  - apply Qclt_le_weak. by apply Qc_mul_pos.
  - rewrite Qcmult_0_r. apply Qcle_refl.
  - apply Qclt_le_weak. by apply Qc_mul_neg_neg.
Qed.
Lemma nonneg_cases n : num_le (num_of_Z 0) n <-> n = PInf \/ exists q, n = Fin q /\ (0 <= q)%Qc.
Proof.
  rewrite <-num_leb_le. unfold num_leb, num_of_Z. destruct n as [q| | |]; simpl; try (split; [done|intros [?|(? & ? & ?)]; done]).
  - rewrite Qc_of_Z_0, orb_true_iff, Qc_ltb_lt, bool_decide_eq_true. split.
    + intros [H|[= <-]]; right; eexists; (split; [done|]); [by apply Qclt_le_weak|apply Qcle_refl].
    + intros [?|(q' & [= <-] & Hq)]; [done|]. apply Qcle_lt_or_eq in Hq as [?|<-]; auto.
  - split; [by left|]. auto.
Qed.
Lemma nonneg_add n m : num_le (num_of_Z 0) n -> num_le (num_of_Z 0) m -> num_le (num_of_Z 0) (num_add n m).
Proof.
  rewrite !nonneg_cases. intros [->|(p & -> & Hp)] [->|(q & -> & Hq)]; simpl; auto.
  right. eexists. split; [done|]. rewrite <-(Qcplus_0_l 0). by apply Qcplus_le_compat.
Qed.
Lemma nonneg_square n : n <> NaN -> num_le (num_of_Z 0) (num_mul n n).
Proof. rewrite nonneg_cases. destruct n; simpl; auto; [|done]. right. eexists. split; [done|]. apply Qc_square. Qed.
Lemma Qc_of_nat_pos k : 0 < k -> (0 < Qc_of_Z (Z.of_nat k))%Qc.
Proof.
  intros Hk. rewrite <-Qc_of_Z_0. apply Qc_ltb_lt. assert (H : num_lt (num_of_Z 0) (num_of_Z (Z.of_nat k))) by (apply num_of_Z_lt; lia).
  apply num_ltb_lt in H. exact H.
Qed.
Lemma nonneg_div n k : num_le (num_of_Z 0) n -> 0 < k -> num_le (num_of_Z 0) (num_div n (num_of_nat k)).
Proof.
  rewrite !nonneg_cases. intros [->|(p & -> & Hp)] Hk; unfold num_of_nat, num_of_Z; simpl.
  - left. assert (Qc_ltb (Qc_of_Z (Z.of_nat k)) 0 = false) as ->; [|done].
    apply Qc_ltb_ge. apply Qclt_le_weak. by apply Qc_of_nat_pos.
  - pose proof (Qc_of_nat_pos k Hk) as Hpos.
    case_decide as Hz; [rewrite Hz in Hpos; by apply Qclt_not_eq in Hpos|].
    right. eexists. split; [done|]. unfold Qcdiv. 
    assert (0 <= / Qc_of_Z (Z.of_nat k))%Qc.
    { apply Qcnot_lt_le. intros Hneg. pose proof (Qc_mul_neg _ _ Hpos Hneg) as Hm. rewrite Qcmult_inv_r in Hm by done. done. }
    rewrite <-(Qcmult_0_l (/ Qc_of_Z (Z.of_nat k))). by apply Qcmult_le_compat_r.
Qed.
Lemma dot_self_nonneg us : num_le (num_of_Z 0) (dot (map nan_to_0 us) (map nan_to_0 us)).
Proof.
  unfold dot. induction us as [|u us IH]; cbn [map zip_with foldr]; [by apply num_le_refl|].
  apply nonneg_add; [|done]. apply nonneg_square. unfold nan_to_0. destruct u; done.
Qed.

(** The rows as lists of numbers. *)
Lemma row_nums_spec y cols i a :
  valid y -> llabel y !! 1 = Some cols -> (exists l0, llabel y = [l0; cols] /\ l0 !! i = Some a) ->
  (ldtype y = DFloat \/ ldtype y = DInt \/ ldtype y = DBool) ->
  exists ns, row_nums (larr y) i (length cols) = Some ns /\ Forall2 (fun c n => number_at y [a; c] n) cols ns.
Proof.
  intros Hv Hcols (l0 & HL & Hi) Hdt.
  assert (Hj : forall j c, cols !! j = Some c -> exists n, (v ← aget (larr y) [i; j]; to_num v) = Some n /\ number_at y [a; c] n).
  { intros j c Hc. assert (Hat : labels_at (llabel y) [i; j] [a; c]) by (rewrite HL; by apply labels2).
    destruct (valid_cell_at y _ _ Hv Hat) as (v & Hg & Hcell). pose proof (valid_cell_typed y _ _ Hv Hcell) as Hty.
    rewrite Hg. simpl. destruct Hdt as [E|[E|E]]; rewrite E in Hty; destruct v; try done; simpl; eexists; (split; [done|]); eexists; done. }
  unfold row_nums. destruct (mapM (fun j => v ← aget (larr y) [i; j]; to_num v) (seq 0 (length cols))) as [ns|] eqn:E.
  - exists ns. split; [done|]. apply mapM_Some_lookup in E as [Hlen E]. rewrite seq_length in Hlen.
    apply Forall2_same_length_lookup_2; [done|]. intros j c n Hc Hn. destruct (Hj j c Hc) as (n' & Hn' & Hat).
    assert (Hs : seq 0 (length cols) !! j = Some j) by (apply lookup_seq; split; [done|]; by apply lookup_lt_Some in Hc).
    specialize (E j j Hs). congruence.
  - exfalso. apply eq_None_not_Some in E. apply E. apply mapM_is_Some. apply Forall_forall. intros j Hin. apply elem_of_seq in Hin.
    destruct (lookup_lt_is_Some_2 cols j) as [c Hc]; [lia|]. destruct (Hj j c Hc) as (n & Hn & _). eauto.
Qed.

(** What cov computes, under the one condition it checks. *)
Definition enough_common (y : larry) (l0 : list lab) : Prop :=
  forall a b cs, a ∈ l0 -> b ∈ l0 -> common_columns y a b cs -> 2 <= length cs.

Lemma cov_main y l0 cols :
  valid y -> llabel y = [l0; cols] -> (ldtype y = DFloat \/ ldtype y = DInt \/ ldtype y = DBool) ->
  (exists a b cs, a ∈ l0 /\ b ∈ l0 /\ common_columns y a b cs /\ length cs < 2) /\ larry_cov y = Err ValueError \/
  (forall a b, a ∈ l0 -> b ∈ l0 -> exists cs, common_columns y a b cs /\ 2 <= length cs) /\
  exists z, larry_cov y = Ok z /\ valid z /\ ldtype z = DFloat /\ llabel z = [l0; l0] /\
    (forall a b, cell z [a; b] = cell z [b; a]) /\
    (forall a, a ∈ l0 -> exists n, cell z [a; a] = Some (VFloat n) /\ num_le (num_of_Z 0) n) /\
    (forall a b, ldtype y <> DBool -> no_inf_opposite_nan y a b -> a ∈ l0 -> b ∈ l0 ->
       exists n, cell z [a; b] = Some (VFloat n) /\ cov_entry y a b n) /\
    (forall a b us vs, a ∈ l0 -> b ∈ l0 ->
       Forall2 (fun c u => number_at y [a; c] u) cols us -> Forall2 (fun c v => number_at y [b; c] v) cols vs ->
       cell z [a; b] = Some (VFloat (num_div ((match ldtype y with DBool => bool_dot | _ => dot end) (map nan_to_0 us) (map nan_to_0 vs))
         (dot (map is_present us) (map is_present vs))))).
Proof.
  intros Hv HL Hdt. pose proof (valid_shape y Hv) as Hsh. rewrite HL in Hsh. simpl in Hsh.
  assert (Hcols : llabel y !! 1 = Some cols) by by rewrite HL.
  destruct (mapM (fun i => row_nums (nd_arr (lx y)) i (length cols)) (seq 0 (length l0))) as [rows|] eqn:Erows.
  2: { exfalso. apply eq_None_not_Some in Erows. apply Erows. apply mapM_is_Some. apply Forall_forall. intros i Hin. apply elem_of_seq in Hin.
       destruct (lookup_lt_is_Some_2 l0 i) as [a Ha]; [lia|].
       destruct (row_nums_spec y cols i a) as (ns & Hns & _); eauto. }
  pose proof Erows as Erows'. apply mapM_Some_lookup in Erows' as [Hlen Hrows]. rewrite seq_length in Hlen.
  assert (Hrow : forall i a, l0 !! i = Some a -> exists ns, rows !! i = Some ns /\ Forall2 (fun c n => number_at y [a; c] n) cols ns).
  { intros i a Ha. destruct (row_nums_spec y cols i a) as (ns & Hns & Hf); eauto. exists ns. split; [|done].
    assert (Hs : seq 0 (length l0) !! i = Some i) by (apply lookup_seq; split; [done|]; by apply lookup_lt_Some in Ha).
    rewrite <-(Hrows i i Hs). exact Hns. }
  assert (Hrow_inv : forall i ns, rows !! i = Some ns -> exists a, l0 !! i = Some a /\ Forall2 (fun c n => number_at y [a; c] n) cols ns).
  { intros i ns Hns. destruct (lookup_lt_is_Some_2 l0 i) as [a Ha]; [apply lookup_lt_Some in Hns; lia|].
    destruct (Hrow i a Ha) as (ns' & Hns' & Hf). exists a. split; [done|]. congruence. }
  unfold larry_cov. rewrite decide_False by (rewrite <-(valid_ndim y Hv), HL; simpl; lia).
  unfold axis_label. rewrite HL. cbn [lookup list_lookup of_opt mbind res_bind].
  unfold cov_missing. change (nd_shape (lx y)) with (lshape y). rewrite <-Hsh. change (nd_dtype (lx y)) with (ldtype y).
  rewrite decide_True by done. rewrite Erows. cbn [of_opt mbind res_bind].
  set (P := map (map is_present) rows). set (R := map (map nan_to_0) rows).
  destruct (existsb _ P) eqn:Etest.
  - left. split; [|done]. apply existsb_exists in Etest as (p & Hp & Hq). apply existsb_exists in Hq as (q & Hq & Hlt).
    apply in_map_iff in Hp as (us & <- & Hus), Hq as (vs & <- & Hvs).
    apply elem_of_list_In in Hus, Hvs. apply elem_of_list_lookup in Hus as [i Hi], Hvs as [j Hj].
    destruct (Hrow_inv i us Hi) as (a & Ha & Hua), (Hrow_inv j vs Hj) as (b & Hb & Hvb).
    destruct (pair_sums y a b cols us vs Hua Hvb) as (cs & ps & Hk & _ & Hl & _).
    exists a, b, cs. split_and!; [by eapply elem_of_list_lookup_2|by eapply elem_of_list_lookup_2|by exists cols|].
    rewrite Hl, num_of_nat_lt2 in Hlt. by apply bool_decide_eq_true in Hlt.
  - right.
    assert (Hpair : forall i j us vs, rows !! i = Some us -> rows !! j = Some vs -> num_ltb (dot (map is_present us) (map is_present vs)) (num_of_Z 2) = false).
    { intros i j us vs Hi Hj. destruct (num_ltb _ _) eqn:E; [|done]. exfalso.
      assert (Hex : existsb (fun p => existsb (fun q => num_ltb (dot p q) (num_of_Z 2)) P) P = true); [|by rewrite Hex in Etest].
      apply existsb_exists. exists (map is_present us). split; [apply in_map, elem_of_list_In; by eapply elem_of_list_lookup_2|].
      apply existsb_exists. exists (map is_present vs). split; [apply in_map, elem_of_list_In; by eapply elem_of_list_lookup_2|done]. }
    assert (Hcommon : forall i j a b us vs, l0 !! i = Some a -> l0 !! j = Some b -> rows !! i = Some us -> rows !! j = Some vs ->
      exists cs ps, common_columns y a b cs /\ 2 <= length cs /\
      Forall2 (fun c p => exists na nb, number_at y [a; c] na /\ number_at y [b; c] nb /\ p = num_mul na nb) cs ps /\
      dot (map is_present us) (map is_present vs) = num_of_nat (length cs) /\
      (no_inf_opposite_nan y a b -> dot (map nan_to_0 us) (map nan_to_0 vs) = num_total ps)).
    { intros i j a b us vs Ha Hb Hi Hj. destruct (Hrow i a Ha) as (us' & Hi' & Hua), (Hrow j b Hb) as (vs' & Hj' & Hvb). simplify_eq.
      destruct (pair_sums y a b cols us vs Hua Hvb) as (cs & ps & Hk & Hps & Hl & Hsum). exists cs, ps.
      split_and!; try done; [by exists cols|]. pose proof (Hpair i j us vs Hi Hj) as Hp. rewrite Hl, num_of_nat_lt2 in Hp.
      apply bool_decide_eq_false in Hp. lia. }
    split.
    { intros a b Ha Hb. apply elem_of_list_lookup in Ha as [i Ha], Hb as [j Hb].
      destruct (Hrow i a Ha) as (us & Hi & _), (Hrow j b Hb) as (vs & Hj & _).
      destruct (Hcommon i j a b us vs Ha Hb Hi Hj) as (cs & ps & ? & ? & _). eauto. }
    set (f := fun idx : list nat => match idx with [i; j] => _ | _ => None end).
    set (dot1 := match ldtype y with DBool => bool_dot | _ => dot end) in *.
    assert (Hf : forall i j us vs, rows !! i = Some us -> rows !! j = Some vs ->
      f [i; j] = Some (VFloat (num_div (dot1 (map nan_to_0 us) (map nan_to_0 vs)) (dot (map is_present us) (map is_present vs))))).
    { intros i j us vs Hi Hj. unfold f, R, P. rewrite !list_lookup_fmap, Hi, Hj. done. }
    destruct (build [length l0; length l0] f) as [c|] eqn:Eb.
    2: { exfalso. apply eq_None_not_Some in Eb. apply Eb. unfold build. apply fmap_is_Some, mapM_is_Some. apply Forall_forall.
         intros idx Hidx%elem_of_indices. apply in_range_cons in Hidx as (i & idx' & -> & Hi & Hidx).
         apply in_range_cons in Hidx as (j & idx'' & -> & Hj & Hidx). apply in_range_nil in Hidx as ->.
         destruct (lookup_lt_is_Some_2 rows i) as [us Hus]; [lia|]. destruct (lookup_lt_is_Some_2 rows j) as [vs Hvs]; [lia|].
         eexists. exact (Hf i j us vs Hus Hvs). }
    cbn [of_opt mbind res_bind]. set (z := Larry _ _). exists z. split; [done|].
    pose proof Eb as Eb'. apply build_Some in Eb' as (Hcs & Hcw & Hget).
    assert (Hgz : forall i j us vs, rows !! i = Some us -> rows !! j = Some vs ->
      aget c [i; j] = Some (VFloat (num_div (dot1 (map nan_to_0 us) (map nan_to_0 vs)) (dot (map is_present us) (map is_present vs))))).
    { intros i j us vs Hi Hj. rewrite Hget; [by apply Hf|]. apply lookup_lt_Some in Hi, Hj. repeat constructor; lia. }
    assert (Hnod : NoDup l0) by (pose proof (valid_nodup y Hv) as H; rewrite HL in H; by inversion H).
    assert (Hvz : valid z).
    { split_and!; [|done|simpl; by rewrite <-Hcs|by repeat constructor].
      apply nda_wf_get; [done|]. intros idx v Hg. change (aget c idx = Some v) in Hg. apply (build_get _ _ _ _ _ Eb) in Hg as [Hr Hfv].
      apply in_range_cons in Hr as (i & idx' & -> & Hi & Hr). apply in_range_cons in Hr as (j & idx'' & -> & Hj & Hr).
      apply in_range_nil in Hr as ->.
      destruct (lookup_lt_is_Some_2 rows i) as [us Hus]; [lia|]. destruct (lookup_lt_is_Some_2 rows j) as [vs Hvs]; [lia|].
      pose proof (Hf i j us vs Hus Hvs) as Hfv'. rewrite Hfv' in Hfv. by injection Hfv as <-. }
    assert (Hcz : forall i j a b us vs, l0 !! i = Some a -> l0 !! j = Some b -> rows !! i = Some us -> rows !! j = Some vs ->
      cell z [a; b] = Some (VFloat (num_div (dot1 (map nan_to_0 us) (map nan_to_0 vs)) (dot (map is_present us) (map is_present vs))))).
    { intros i j a b us vs Ha Hb Hi Hj. rewrite (cell_at z [i; j]); [|by apply valid_nodup|by apply labels2]. by apply Hgz. }
    assert (Hsym1 : forall u v, dot1 u v = dot1 v u).
    { intros u v. unfold dot1. destruct (ldtype y); auto using dot_sym, bool_dot_sym. }
    split_and!; try done.
    + intros a b. destruct (decide (a ∈ l0 /\ b ∈ l0)) as [[Ha Hb]|Hno].
      * apply elem_of_list_lookup in Ha as [i Ha], Hb as [j Hb].
        destruct (Hrow i a Ha) as (us & Hi & _), (Hrow j b Hb) as (vs & Hj & _).
        rewrite (Hcz i j a b us vs), (Hcz j i b a vs us) by done. by rewrite Hsym1, dot_sym.
      * transitivity (None : option val); [|symmetry]; apply cell_None_grid; try done;
          intros Hg; inversion Hg as [|? ? ? ? H1 Hg']; subst; inversion Hg' as [|? ? ? ? H2 _]; subst; tauto.
    + intros a Ha. apply elem_of_list_lookup in Ha as [i Ha]. destruct (Hrow i a Ha) as (us & Hi & _).
      rewrite (Hcz i i a a us us) by done. eexists. split; [done|].
      destruct (Hcommon i i a a us us Ha Ha Hi Hi) as (cs & ps & _ & H2 & _ & Hl & _). rewrite Hl.
      apply nonneg_div; [|lia]. unfold dot1. destruct (ldtype y); try apply dot_self_nonneg.
      unfold bool_dot. case_match; apply num_of_Z_le; lia.
    + intros a b Hnb Hinf Ha Hb. apply elem_of_list_lookup in Ha as [i Ha], Hb as [j Hb].
      destruct (Hrow i a Ha) as (us & Hi & _), (Hrow j b Hb) as (vs & Hj & _).
      destruct (Hcommon i j a b us vs Ha Hb Hi Hj) as (cs & ps & Hcom & H2 & Hps & Hl & Hsum).
      rewrite (Hcz i j a b us vs) by done. eexists. split; [done|]. exists cs, ps. split_and!; try done.
      rewrite Hl. f_equal. rewrite <-(Hsum Hinf). unfold dot1. by destruct (ldtype y).
    + intros a b us vs Ha Hb Hua Hvb. apply elem_of_list_lookup in Ha as [i Ha], Hb as [j Hb].
      destruct (Hrow i a Ha) as (us' & Hi & Hua'), (Hrow j b Hb) as (vs' & Hj & Hvb').
      assert (Hsame : forall x (l k : list num), Forall2 (fun c u => number_at y [x; c] u) cols l -> Forall2 (fun c u => number_at y [x; c] u) cols k -> l = k).
      { clear. intros x l k Hl. revert k. induction Hl as [|c n cols l Hn Hl IH]; intros k Hk; inversion Hk; subst; [done|].
        f_equal; [by eapply number_at_fun|auto]. }
      rewrite (Hsame _ _ _ Hua Hua'), (Hsame _ _ _ Hvb Hvb'). by apply (Hcz i j).
Qed.

Lemma cov_labels y : valid y -> lndim y = 2 -> exists l0 cols, llabel y = [l0; cols].
Proof. apply two_labels. Qed.
Lemma cov_numeric y z : larry_cov y = Ok z -> lndim y = 2 /\ (ldtype y = DFloat \/ ldtype y = DInt \/ ldtype y = DBool).
Proof.
  unfold larry_cov. destruct (decide (lndim y <> 2)) as [|Hnd]; [done|]. apply dec_stable in Hnd. intros H.
  apply bind_ok in H as (l & _ & H). apply bind_ok in H as (x & Hx & _). split; [done|]. unfold cov_missing in Hx.
  destruct (nd_shape (lx y)) as [|n [|m [|]]]; try done. case_decide; done.
Qed.

Theorem cov_spec y z :
  valid y -> larry_cov y = Ok z ->
  exists l0 cols, llabel y = [l0; cols] /\ valid z /\ ldtype z = DFloat /\ llabel z = [l0; l0] /\
  (forall a b, cell z [a; b] = cell z [b; a]) /\
  (forall a, a ∈ l0 -> exists n, cell z [a; a] = Some (VFloat n) /\ num_le (num_of_Z 0) n) /\
  (forall a b, a ∈ l0 -> b ∈ l0 -> exists cs, common_columns y a b cs /\ 2 <= length cs).
Proof.
  intros Hv Hz. destruct (cov_numeric y z Hz) as [H2 Hdt]. destruct (two_labels y Hv H2) as (l0 & cols & HL).
  destruct (cov_main y l0 cols Hv HL Hdt) as [[_ He]|[Hcom (z' & Hz' & ? & ? & ? & ? & ? & _)]]; [congruence|].
  replace z' with z in * by congruence. exists l0, cols. done.
Qed.
Theorem cov_entries y z l0 a b :
  valid y -> larry_cov y = Ok z -> ldtype y <> DBool -> llabel y !! 0 = Some l0 -> a ∈ l0 -> b ∈ l0 -> no_inf_opposite_nan y a b ->
  exists n, cell z [a; b] = Some (VFloat n) /\ cov_entry y a b n.
Proof.
  intros Hv Hz Hnb Hl Ha Hb Hinf. destruct (cov_numeric y z Hz) as [H2 Hdt]. destruct (two_labels y Hv H2) as (l0' & cols & HL).
  rewrite HL in Hl. simpl in Hl. injection Hl as <-.
  destruct (cov_main y l0' cols Hv HL Hdt) as [[_ He]|[Hcom (z' & Hz' & ? & ? & ? & ? & ? & He & _)]]; [congruence|].
  replace z' with z in * by congruence. eauto.
Qed.

(** An infinity opposite a NaN. *)
Lemma row_numbers y l0 cols a :
  valid y -> llabel y = [l0; cols] -> (ldtype y = DFloat \/ ldtype y = DInt \/ ldtype y = DBool) -> a ∈ l0 ->
  exists us, Forall2 (fun c u => number_at y [a; c] u) cols us.
Proof.
  intros Hv HL Hdt Ha. apply elem_of_list_lookup in Ha as [i Ha].
  destruct (row_nums_spec y cols i a Hv) as (us & _ & Hus); [by rewrite HL|eauto|done|]. eauto.
Qed.
Lemma dot_nan us vs i u v : us !! i = Some u -> vs !! i = Some v -> num_mul u v = NaN -> dot us vs = NaN.
Proof.
  revert vs i. induction us as [|u0 us IH]; intros [|v0 vs] [|i] Hu Hv Hm; try done.
  - injection Hu as ->. injection Hv as ->. unfold dot. simpl. by rewrite Hm.
  - simpl in Hu, Hv. unfold dot in *. simpl. rewrite (IH vs i Hu Hv Hm). by destruct (num_mul u0 v0).
Qed.
Theorem cov_inf y z l0 a b c n :
  valid y -> larry_cov y = Ok z -> llabel y !! 0 = Some l0 -> a ∈ l0 -> b ∈ l0 -> is_inf n = true ->
  number_at y [a; c] n /\ number_at y [b; c] NaN \/ number_at y [a; c] NaN /\ number_at y [b; c] n ->
  cell z [a; b] = Some (VFloat NaN).
Proof.
  intros Hv Hz Hl Ha Hb Hinf Hn. destruct (cov_numeric y z Hz) as [H2 Hdt]. destruct (two_labels y Hv H2) as (l0' & cols & HL).
  rewrite HL in Hl. simpl in Hl. injection Hl as <-.
  destruct (cov_main y l0' cols Hv HL Hdt) as [[_ He]|[Hcom (z' & Hz' & ? & ? & ? & ? & ? & _ & He)]]; [congruence|].
  replace z' with z in * by congruence.
  destruct (row_numbers y l0' cols a Hv HL Hdt Ha) as (us & Hus). destruct (row_numbers y l0' cols b Hv HL Hdt Hb) as (vs & Hvs).
  rewrite (He a b us vs Ha Hb Hus Hvs). do 2 f_equal.
  assert (Hc : c ∈ cols).
  { assert (is_Some (cell y [a; c])) as Hs by (destruct Hn as [[(v & ? & _) _]|[(v & ? & _) _]]; eauto).
    apply (valid_cell_grid y _ Hv) in Hs. rewrite HL in Hs. inversion Hs as [|? ? ? ? _ Hs']; subst. by inversion Hs'; subst. }
  apply elem_of_list_lookup in Hc as [i Hi].
  destruct (Forall2_lookup_l _ _ _ _ _ Hus Hi) as (u & Hu & Hau). destruct (Forall2_lookup_l _ _ _ _ _ Hvs Hi) as (v & Hvi & Hbv).
  assert (ldtype y = DFloat) as Hf.
  { assert (Hx : exists v0, cell y [a; c] = Some v0 /\ to_num v0 = Some n \/ cell y [b; c] = Some v0 /\ to_num v0 = Some n)
      by (destruct Hn as [[(v0 & ? & ?) _]|[_ (v0 & ? & ?)]]; eauto).
    destruct Hx as (v0 & [[Hc0 Hn0]|[Hc0 Hn0]]); apply (valid_cell_typed y _ _ Hv) in Hc0;
      destruct Hdt as [?|[E|E]]; try done; rewrite E in Hc0; destruct v0; try done; simpl in Hn0; by injection Hn0 as <-. }
  rewrite Hf. assert (dot (map nan_to_0 us) (map nan_to_0 vs) = NaN) as ->; [|done].
  eapply (dot_nan _ _ i).
  - change (map nan_to_0 us) with (nan_to_0 <$> us). rewrite list_lookup_fmap, Hu. done.
  - change (map nan_to_0 vs) with (nan_to_0 <$> vs). rewrite list_lookup_fmap, Hvi. done.
  - destruct Hn as [[Hn1 Hn2]|[Hn1 Hn2]]; rewrite (number_at_fun _ _ _ _ Hau Hn1), (number_at_fun _ _ _ _ Hbv Hn2);
      destruct n; try done; vm_compute; done.
Qed.

(** A bool larry: numpy's dot product of bools is their disjunction. *)
Theorem cov_bool y z l0 cols a b :
  valid y -> larry_cov y = Ok z -> ldtype y = DBool -> llabel y = [l0; cols] -> a ∈ l0 -> b ∈ l0 ->
  exists k, cell z [a; b] = Some (VFloat (num_div (num_of_Z k) (num_of_nat (length cols)))) /\
    ((exists c, cell y [a; c] = Some (VBool true) /\ cell y [b; c] = Some (VBool true)) /\ k = 1%Z \/
     (forall c, cell y [a; c] = Some (VBool true) -> cell y [b; c] <> Some (VBool true)) /\ k = 0%Z).
Proof.
  intros Hv Hz Hd HL Ha Hb. assert (Hdt : ldtype y = DFloat \/ ldtype y = DInt \/ ldtype y = DBool) by tauto.
  destruct (cov_main y l0 cols Hv HL Hdt) as [[_ He]|[Hcom (z' & Hz' & ? & ? & ? & ? & ? & _ & He)]]; [congruence|].
  replace z' with z in * by congruence.
  destruct (row_numbers y l0 cols a Hv HL Hdt Ha) as (us & Hus). destruct (row_numbers y l0 cols b Hv HL Hdt Hb) as (vs & Hvs).
  rewrite (He a b us vs Ha Hb Hus Hvs), Hd.
  assert (Hbool : forall x c n, number_at y [x; c] n ->
    (cell y [x; c] = Some (VBool true) /\ n = num_of_Z 1) \/ (cell y [x; c] = Some (VBool false) /\ n = num_of_Z 0)).
  { intros x c n (v & Hc & Hn). pose proof (valid_cell_typed y _ _ Hv Hc) as Ht. rewrite Hd in Ht. destruct v as [| |[]| | |]; try done;
      simpl in Hn; injection Hn as <-; auto. }
  destruct (pair_sums y a b cols us vs Hus Hvs) as (cs & ps & Hk & _ & -> & _).
  assert (cs = cols) as ->.
  { eapply kept_fun; [exact Hk|]. clear -Hus Hvs Hbool.
    assert (Hno : forall x c, ~ number_at y [x; c] NaN) by (intros x c Hn; apply Hbool in Hn as [[_ ?]|[_ ?]]; done).
    clear Hus Hvs. induction cols as [|c cols IH]; constructor; auto. }
  unfold bool_dot. destruct (existsb _ _) eqn:Ex.
  - exists 1%Z. split; [done|]. left. split; [|done]. apply existsb_exists in Ex as (p & Hp & Hnz).
    apply elem_of_list_In, elem_of_list_lookup in Hp as [i Hp]. apply lookup_zip_with_Some in Hp as (u & v & -> & Hu & Hv').
    change (map nan_to_0 us) with (nan_to_0 <$> us) in Hu. change (map nan_to_0 vs) with (nan_to_0 <$> vs) in Hv'.
    apply list_lookup_fmap_inv in Hu as (u0 & -> & Hu), Hv' as (v0 & -> & Hv').
    destruct (Forall2_lookup_r _ _ _ _ _ Hus Hu) as (c & Hc & Hau).
    assert (Hbv : number_at y [b; c] v0) by exact (Forall2_lookup_lr _ _ _ _ _ _ Hvs Hc Hv').
    exists c. apply Hbool in Hau as [[? ->]|[? ->]].
    + split; [done|]. apply Hbool in Hbv as [[? ->]|[? ->]]; [done|].
      change (nan_to_0 (num_of_Z 1)) with (num_of_Z 1) in Hnz. change (nan_to_0 (num_of_Z 0)) with (num_of_Z 0) in Hnz.
      rewrite num_mul_Z in Hnz. by rewrite bool_decide_eq_true_2 in Hnz.
    + exfalso. apply Hbool in Hbv as [[? ->]|[? ->]];
        change (nan_to_0 (num_of_Z 1)) with (num_of_Z 1) in Hnz; change (nan_to_0 (num_of_Z 0)) with (num_of_Z 0) in Hnz;
        rewrite num_mul_Z in Hnz; by rewrite bool_decide_eq_true_2 in Hnz.
  - exists 0%Z. split; [done|]. right. split; [|done]. intros c Ht1 Ht2. apply Bool.not_true_iff_false in Ex. apply Ex.
    assert (Hc : c ∈ cols).
    { assert (is_Some (cell y [a; c])) as Hs by eauto. apply (valid_cell_grid y _ Hv) in Hs. rewrite HL in Hs.
      inversion Hs as [|? ? ? ? _ Hs']; subst. by inversion Hs'; subst. }
    apply elem_of_list_lookup in Hc as [i Hi].
    destruct (Forall2_lookup_l _ _ _ _ _ Hus Hi) as (u & Hu & Hau). destruct (Forall2_lookup_l _ _ _ _ _ Hvs Hi) as (v & Hvi & Hbv).
    apply existsb_exists. exists (num_mul (nan_to_0 u) (nan_to_0 v)). split.
    + apply elem_of_list_In, elem_of_list_lookup. exists i. apply lookup_zip_with_Some. exists (nan_to_0 u), (nan_to_0 v). split; [done|].
      change (map nan_to_0 us) with (nan_to_0 <$> us). change (map nan_to_0 vs) with (nan_to_0 <$> vs).
      by rewrite !list_lookup_fmap, Hu, Hvi.
    + apply Hbool in Hau as [[? ->]|[? ?]]; [|congruence]. apply Hbool in Hbv as [[? ->]|[? ?]]; [|congruence].
      change (nan_to_0 (num_of_Z 1)) with (num_of_Z 1). rewrite num_mul_Z.
      rewrite bool_decide_eq_false_2; [done|]. intros Heq. by apply num_of_Z_inj in Heq.
Qed.
Theorem cov_few y l0 a b cs :
  valid y -> lndim y = 2 -> (ldtype y = DFloat \/ ldtype y = DInt \/ ldtype y = DBool) -> llabel y !! 0 = Some l0 -> a ∈ l0 -> b ∈ l0 ->
  common_columns y a b cs -> length cs < 2 -> larry_cov y = Err ValueError.
Proof.
  intros Hv H2 Hdt Hl Ha Hb Hc Hlt. destruct (two_labels y Hv H2) as (l0' & cols & HL).
  rewrite HL in Hl. simpl in Hl. injection Hl as <-.
  destruct (cov_main y l0' cols Hv HL Hdt) as [[_ He]|[Hcom _]]; [done|].
  destruct (Hcom a b Ha Hb) as (cs' & Hc' & Hge). rewrite (common_fun _ _ _ _ _ Hc Hc') in Hlt. lia.
Qed.
Theorem cov_ok y l0 :
  valid y -> lndim y = 2 -> (ldtype y = DFloat \/ ldtype y = DInt \/ ldtype y = DBool) -> llabel y !! 0 = Some l0 ->
  (forall a b cs, a ∈ l0 -> b ∈ l0 -> common_columns y a b cs -> 2 <= length cs) -> exists z, larry_cov y = Ok z.
Proof.
  intros Hv H2 Hdt Hl Hall. destruct (two_labels y Hv H2) as (l0' & cols & HL).
  rewrite HL in Hl. simpl in Hl. injection Hl as <-.
  destruct (cov_main y l0' cols Hv HL Hdt) as [[(a & b & cs & Ha & Hb & Hc & Hlt) _]|[_ (z & Hz & _)]]; [|eauto].
  specialize (Hall a b cs Ha Hb Hc). lia.
Qed.
Lemma cov_not_2d y : lndim y <> 2 -> larry_cov y = Err ValueError.
Proof. intros. unfold larry_cov. by rewrite decide_True. Qed.
(** An infinity opposite a NaN spoils the entry although the column does not
    count. *)
Lemma cov_inf_refuted :
  exists y z a b, valid y /\ ldtype y = DFloat /\ larry_cov y = Ok z /\ a ≠ b /\ cell z [a; b] = Some (VFloat NaN) /\ ~ cov_entry y a b NaN.
Proof.
  set (vf z := VFloat (num_of_Z z)).
  set (y := Larry (Nda DFloat (Arr [2; 3] [vf 1%Z; vf 2%Z; VFloat PInf; vf 3%Z; vf 4%Z; VFloat NaN])) [[LStr "a"; LStr "b"]; [LStr "u"; LStr "v"; LStr "w"]]).
  set (z := match larry_cov y with Ok z => z | Err _ => y end).
  exists y, z, (LStr "a"), (LStr "b"). split_and!; [solve_valid|done| |done| |].
  - vm_compute. reflexivity.
  - vm_compute. reflexivity.
  - intros (cs & ps & Hc & _ & Hps & Hn).
    assert (Hc' : common_columns y (LStr "a") (LStr "b") [LStr "u"; LStr "v"]).
    { exists [LStr "u"; LStr "v"; LStr "w"]. split; [done|].
      apply kept_yes; [split; intros (v & [= <-] & [=])|]. apply kept_yes; [split; intros (v & [= <-] & [=])|].
      apply kept_no; [|constructor]. intros [_ H]. apply H. eexists. split; [reflexivity|done]. }
    rewrite (common_fun _ _ _ _ _ Hc Hc') in *. clear Hc Hc'.
    assert (N : forall r c n k, number_at y [LStr r; LStr c] n -> cell y [LStr r; LStr c] = Some (vf k) -> n = num_of_Z k).
    { intros r c n k H Hv. eapply number_at_fun; [exact H|]. exists (vf k). done. }
    inversion Hps as [|? p ? ps1 (n1 & n2 & H1 & H2 & ->) Hps1]; subst. clear Hps.
    inversion Hps1 as [|? p ? ps2 (n3 & n4 & H3 & H4 & ->) Hps2]; subst. clear Hps1.
    inversion Hps2; subst. clear Hps2.
    apply (N _ _ _ 1%Z) in H1; [|reflexivity]. apply (N _ _ _ 3%Z) in H2; [|reflexivity].
    apply (N _ _ _ 2%Z) in H3; [|reflexivity]. apply (N _ _ _ 4%Z) in H4; [|reflexivity]. subst.
    apply (f_equal is_nan) in Hn. vm_compute in Hn. discriminate Hn.
Qed.
