(** Proofs about quantile. *)
From Verif Require Export RankLarry SortbyFacts.

(** ** The bins *)
Lemma Fin_inj p q : Fin p = Fin q -> p = q.
Proof. congruence. Qed.
Definition in_bin (M q j r : nat) : Prop := (j = 1 \/ (j - 1) * M < r * q) /\ r * q <= j * M.
Definition the_bin (M q r : nat) : nat := if decide (r = 0) then 1 else (r * q - 1) / M + 1.

Lemma the_bin_spec M q r j : 1 < q -> r <= M -> 1 <= j -> in_bin M q j r <-> j = the_bin M q r.
Proof.
  intros Hq Hr Hj. unfold in_bin, the_bin. case_decide as H0.
  - subst r. split; [intros [[->|H] _]; [done|lia]|]. intros ->. split; [by left|lia].
  - assert (HM : 0 < M) by lia. set (d := (r * q - 1) / M).
    assert (Hd : M * d <= r * q - 1 < M * S d).
    { unfold d. split; [apply Nat.mul_div_le; lia|apply Nat.mul_succ_div_gt; lia]. }
    assert (Hrq : 1 <= r * q) by (destruct r, q; simpl; lia).
    split.
    + intros [H1 H2]. assert (S d <= j \/ j <= d) as [Hd1|Hd1] by lia.
      * destruct H1 as [->|H1]; [|].
        { assert (d = 0) by lia. lia. }
        assert (j <= S d \/ S d <= j - 1) as [|Hd2] by lia; [lia|].
        assert (S d * M <= (j - 1) * M) by (by apply Nat.mul_le_mono_r). lia.
      * assert (j * M <= d * M) by (by apply Nat.mul_le_mono_r). lia.
    + intros ->. split.
      * right. replace (d + 1 - 1) with d by lia. lia.
      * replace (d + 1) with (S d) by lia. lia.
Qed.
Lemma the_bin_range M q r : 1 < q -> r <= M -> 1 <= the_bin M q r <= q.
Proof.
  intros Hq Hr. unfold the_bin. case_decide as H0; [lia|].
  assert ((r * q - 1) / M < q); [|lia]. apply Nat.div_lt_upper_bound; [lia|].
  assert (r * q <= M * q) by (by apply Nat.mul_le_mono_r). assert (0 < r * q) by (destruct r, q; simpl; lia). lia.
Qed.
Lemma the_bin_mono M q r s : 1 < q -> r <= s -> s <= M -> the_bin M q r <= the_bin M q s.
Proof.
  intros Hq Hrs Hs. unfold the_bin. destruct (decide (r = 0)) as [->|H0]; [destruct (decide (s = 0)); lia|].
  rewrite decide_False by lia. apply Nat.add_le_mono_r. apply Nat.div_le_mono; [lia|].
  assert (r * q <= s * q) by (by apply Nat.mul_le_mono_r). lia.
Qed.

Lemma scan_from_const x a k i : i < k ->
  scan_from num_add (Fin a) (replicate k (Fin x)) !! i = Some (Fin (a + Qc_of_Z (Z.of_nat (S i)) * x)%Qc).
Proof.
  revert a i. induction k as [|k IH]; intros a i Hi; [lia|]. cbn [replicate scan_from num_add].
  destruct i as [|i]; cbn [lookup list_lookup].
  - do 2 f_equal. change (Z.of_nat 1) with 1%Z. replace (Qc_of_Z 1) with 1%Qc by (by apply Qc_is_canon). ring.
  - change (list_lookup i ?l) with (l !! i). rewrite IH by lia. do 2 f_equal.
    rewrite (Nat2Z.inj_succ (S i)). unfold Z.succ. rewrite (Z2Qc_inj_add _ 1).
    replace (Qc_of_Z 1) with 1%Qc by (by apply Qc_is_canon). ring.
Qed.
Lemma scan_const x k i : i < k -> scan num_add (replicate k (Fin x)) !! i = Some (Fin (Qc_of_Z (Z.of_nat (S i)) * x)%Qc).
Proof.
  destruct k as [|k]; [lia|]. intros Hi. cbn [replicate scan]. destruct i as [|i].
  - cbn. do 2 f_equal. change (Z.of_nat 1) with 1%Z. replace (Qc_of_Z 1) with 1%Qc by (by apply Qc_is_canon). ring.
  - cbn [lookup list_lookup]. change (list_lookup i ?l) with (l !! i). rewrite scan_from_const by lia. do 2 f_equal.
    rewrite (Nat2Z.inj_succ (S i)). unfold Z.succ. rewrite (Z2Qc_inj_add _ 1).
    replace (Qc_of_Z 1) with 1%Qc by (by apply Qc_is_canon). ring.
Qed.
Lemma scan_from_length {A} (f : A -> A -> A) a l : length (scan_from f a l) = length l.
Proof. revert a. induction l as [|x l IH]; intros a; simpl; auto. Qed.
Lemma scan_length' {A} (f : A -> A -> A) l : length (scan f l) = length l.
Proof. destruct l; [done|]. simpl. by rewrite scan_from_length. Qed.

Lemma bin_limits_length M q : length (bin_limits (S M) q) = S q.
Proof. unfold bin_limits. rewrite insert_length. cbn [length]. by rewrite scan_length', replicate_length. Qed.
Lemma bin_limits_lookup M q j : 1 < q -> j <= q ->
  bin_limits (S M) q !! j = Some (if decide (j = 0) then num_of_Z (-1) else if decide (j = q) then num_of_nat (S M)
                                  else Fin (Qc_of_Z (Z.of_nat j) * (Qc_of_Z (Z.of_nat M) / Qc_of_Z (Z.of_nat q)))%Qc).
Proof.
  intros Hq Hj. unfold bin_limits. set (step := num_div _ _).
  assert (Hstep : step = Fin (Qc_of_Z (Z.of_nat M) / Qc_of_Z (Z.of_nat q))%Qc).
  { unfold step, num_of_nat, num_of_Z. cbn [num_div]. rewrite decide_False by (apply Qc_of_Z_neq0; lia).
    do 3 f_equal. lia. }
  rewrite Hstep. cbn [length]. rewrite scan_length', replicate_length.
  replace (S q - 1) with q by lia.
  destruct (decide (j = q)) as [->|Hjq].
  { rewrite decide_False by lia. apply list_lookup_insert. cbn [length]. rewrite scan_length', replicate_length. lia. }
  rewrite list_lookup_insert_ne by done. destruct j as [|j]; [done|]. rewrite decide_False by lia.
  cbn [lookup list_lookup]. change (list_lookup j ?l) with (l !! j). by rewrite scan_const by lia.
Qed.
Lemma Qc_scale_lt j M r q : 0 < q ->
  (Qc_of_Z (Z.of_nat j) * (Qc_of_Z (Z.of_nat M) / Qc_of_Z (Z.of_nat q)) < Qc_of_Z (Z.of_nat r))%Qc <-> j * M < r * q.
Proof.
  intros Hq. assert (H0 : (0 < Qc_of_Z (Z.of_nat q))%Qc) by (apply Qc_of_Z_pos; lia).
  rewrite (Qcmult_lt_iff_r _ _ _ H0).
  assert ((Qc_of_Z (Z.of_nat j) * (Qc_of_Z (Z.of_nat M) / Qc_of_Z (Z.of_nat q)) * Qc_of_Z (Z.of_nat q))%Qc = Qc_of_Z (Z.of_nat j * Z.of_nat M)) as ->.
  { rewrite Z2Qc_inj_mul. field. apply Qc_of_Z_neq0. lia. }
  rewrite <-Z2Qc_inj_mul, <-Z2Qc_inj_lt. lia.
Qed.
Definition bin_test (kdx : list num) (r j : nat) : bool :=
  match kdx !! (j - 1), kdx !! j with
  | Some a, Some b => num_ltb a (num_of_nat r) && num_leb (num_of_nat r) b
  | _, _ => false
  end.
Lemma bin_test_spec M q r j : 1 < q -> r <= M -> 1 <= j <= q -> bin_test (bin_limits (S M) q) r j = true <-> in_bin M q j r.
Proof.
  intros Hq Hr Hj. unfold bin_test. rewrite !bin_limits_lookup by lia. rewrite andb_true_iff, num_ltb_lt, num_leb_le.
  unfold in_bin. rewrite (decide_False (P := j = 0)) by lia. rewrite (decide_False (P := j - 1 = q)) by lia.
  assert (H1 : num_lt (if decide (j - 1 = 0) then num_of_Z (-1) else Fin (Qc_of_Z (Z.of_nat (j - 1)) * (Qc_of_Z (Z.of_nat M) / Qc_of_Z (Z.of_nat q)))%Qc) (num_of_nat r)
     <-> (j = 1 \/ (j - 1) * M < r * q)).
  { destruct (decide (j - 1 = 0)) as [E|E].
    - unfold num_of_nat. rewrite num_of_Z_lt. split; [intros _; left; lia|lia].
    - unfold num_of_nat, num_of_Z. cbn [num_lt]. rewrite Qc_scale_lt by lia. split; [auto|]. intros [->|?]; [done|done]. }
  assert (H2 : num_le (num_of_nat r) (if decide (j = q) then num_of_nat (S M) else Fin (Qc_of_Z (Z.of_nat j) * (Qc_of_Z (Z.of_nat M) / Qc_of_Z (Z.of_nat q)))%Qc)
     <-> r * q <= j * M).
  { destruct (decide (j = q)) as [->|E].
    - unfold num_of_nat. rewrite num_of_Z_le. split; [intros _; rewrite Nat.mul_comm; by apply Nat.mul_le_mono_l|lia].
    - pose proof (Qc_scale_lt j M r q ltac:(lia)) as Hs. unfold num_le, num_same, num_of_nat, num_of_Z. cbn [num_lt].
      split.
      + intros H. destruct (decide (r * q <= j * M)) as [|Hgt]; [done|]. exfalso.
        assert (Hlt : j * M < r * q) by lia. apply Hs in Hlt. destruct H as [H|[H _]].
        * apply (Qclt_not_le _ _ Hlt). by apply Qclt_le_weak.
        * apply Fin_inj in H. rewrite <-H in Hlt. by apply Qclt_not_eq in Hlt.
      + intros H. destruct (Qc_dec (Qc_of_Z (Z.of_nat r)) (Qc_of_Z (Z.of_nat j) * (Qc_of_Z (Z.of_nat M) / Qc_of_Z (Z.of_nat q)))%Qc) as [[?|Hlt]|E']; [by left| |right; split; [by f_equal|done]].
        apply Hs in Hlt. lia. }
  by rewrite H1, H2.
Qed.
Lemma fold_pick (cond : nat -> bool) (g : nat -> num) l b d :
  b ∈ l -> (forall j, j ∈ l -> cond j = true <-> j = b) -> fold_left (fun m j => if cond j then g j else m) l d = g b.
Proof.
  assert (Hnone : forall l d, (forall j, j ∈ l -> cond j = true -> j = b) ->
    fold_left (fun m j => if cond j then g j else m) l d = d \/ fold_left (fun m j => if cond j then g j else m) l d = g b).
  { clear. intros l. induction l as [|x l IH]; intros d H; [by left|]. cbn [fold_left].
    destruct (IH (if cond x then g x else d)) as [E|E]; [intros j Hj; apply H; by constructor| |by right].
    rewrite E. destruct (cond x) eqn:Ec; [|by left]. right. by rewrite (H x ltac:(constructor) Ec). }
  revert d. induction l as [|x l IH]; intros d Hb H; [by apply elem_of_nil in Hb|]. cbn [fold_left].
  destruct (decide (b ∈ l)) as [Hin|Hin].
  - apply IH; [done|]. intros j Hj. apply H. by constructor.
  - apply elem_of_cons in Hb as [->|]; [|done]. assert (cond x = true) as ->. { apply H; [constructor|done]. }
    destruct (Hnone l (g x)) as [E|E]; [|done|done]. intros j Hj. apply H. by constructor.
Qed.
Lemma bin_of_spec M q r : 1 < q -> r <= M -> bin_of (bin_limits (S M) q) q r = num_of_nat (the_bin M q r).
Proof.
  intros Hq Hr. unfold bin_of.
  transitivity (fold_left (fun m j => if bin_test (bin_limits (S M) q) r j then num_of_nat j else m) (seq 1 q) NaN).
  - generalize NaN. generalize (seq 1 q). intros l. induction l as [|j l IH]; intros d; [done|]. cbn [fold_left].
    rewrite IH. f_equal. unfold bin_test. by destruct (bin_limits (S M) q !! (j - 1)), (bin_limits (S M) q !! j).
  - apply (fold_pick _ num_of_nat); [apply elem_of_seq; pose proof (the_bin_range M q r Hq Hr); lia|].
    intros j Hj%elem_of_seq. rewrite bin_test_spec by lia. apply the_bin_spec; lia.
Qed.

(** ** The sizes of the bins *)
Lemma filter_seq_range n a c : c < n -> length (filter (fun r => a < r /\ r <= c) (seq 0 n)) = c - a.
Proof.
  intros Hc. induction n as [|n IH]; [lia|]. rewrite seq_S, filter_app, app_length. cbn [Nat.add].
  destruct (decide (c = n)) as [->|Hne].
  - clear IH. rewrite filter_cons, filter_nil.
    assert (forall m, m <= n -> length (filter (fun r => a < r /\ r <= n) (seq 0 m)) = m - S a) as H.
    { induction m as [|m IH]; intros Hm; [done|]. rewrite seq_S, filter_app, app_length, IH by lia. cbn [Nat.add].
      rewrite filter_cons, filter_nil. destruct (decide (a < m /\ m <= n)); simpl; lia. }
    rewrite H by done. destruct (decide (a < n /\ n <= n)); simpl; lia.
  - rewrite IH by lia. rewrite filter_cons, filter_nil, decide_False by lia. simpl. lia.
Qed.
Lemma filter_seq_upto n c : c < n -> length (filter (fun r => r <= c) (seq 0 n)) = S c.
Proof.
  intros Hc. induction n as [|n IH]; [lia|]. rewrite seq_S, filter_app, app_length. cbn [Nat.add].
  rewrite filter_cons, filter_nil. destruct (decide (c = n)) as [->|Hne].
  - clear IH. rewrite decide_True by done.
    assert (forall m, m <= n -> length (filter (fun r => r <= n) (seq 0 m)) = m) as H.
    { induction m as [|m IH]; intros Hm; [done|]. rewrite seq_S, filter_app, app_length, IH by lia. cbn [Nat.add].
      rewrite filter_cons, filter_nil, decide_True by lia. simpl. lia. }
    rewrite H by done. simpl. lia.
  - rewrite IH by lia. rewrite decide_False by lia. simpl. lia.
Qed.
Lemma bin_size M q b : 1 < q -> 1 <= b <= q ->
  length (filter (fun x => x = b) (the_bin M q <$> seq 0 (S M))) = b * M / q - (b - 1) * M / q + (if decide (b = 1) then 1 else 0).
Proof.
  intros Hq Hb. rewrite filter_fmap_length.
  assert (Hdiv : forall j r, r * q <= j * M <-> r <= j * M / q).
  { intros j r. split; intros H; [apply Nat.div_le_lower_bound; lia|].
    pose proof (Nat.mul_div_le (j * M) q ltac:(lia)). assert (r * q <= j * M / q * q) by (by apply Nat.mul_le_mono_r). lia. }
  assert (HbM : b * M / q < S M). { apply Nat.lt_succ_r. apply Nat.div_le_upper_bound; [lia|]. apply Nat.mul_le_mono_r. lia. }
  case_decide as H1.
  - subst b. rewrite (filter_length_ext _ (fun r => r <= 1 * M / q)).
    + rewrite filter_seq_upto by done. replace ((1 - 1) * M) with 0 by lia. rewrite Nat.div_0_l by lia. lia.
    + intros r Hr%elem_of_seq. rewrite <-Hdiv. split.
      * intros E. symmetry in E. apply the_bin_spec in E; [|lia..]. apply E.
      * intros E. symmetry. apply the_bin_spec; [lia..|]. split; [by left|done].
  - rewrite (filter_length_ext _ (fun r => (b - 1) * M / q < r /\ r <= b * M / q)).
    + rewrite filter_seq_range by done. lia.
    + intros r Hr%elem_of_seq. rewrite <-Hdiv. assert (Hlt : (b - 1) * M / q < r <-> (b - 1) * M < r * q).
      { pose proof (Hdiv (b - 1) r). lia. }
      rewrite Hlt. split.
      * intros E. symmetry in E. apply the_bin_spec in E; [|lia..]. destruct E as [[?|?] ?]; [lia|done].
      * intros [? ?]. symmetry. apply the_bin_spec; [lia..|]. split; [by right|done].
Qed.
Lemma bin_size_bounds M q b : 1 < q -> 1 <= b <= q ->
  M / q <= length (filter (fun x => x = b) (the_bin M q <$> seq 0 (S M))) <= S (M / q).
Proof.
  intros Hq Hb. rewrite bin_size by done.
  assert (Hs : b * M = (b - 1) * M + M) by (destruct b; simpl; lia). rewrite Hs.
  set (X := (b - 1) * M). pose proof (Nat.div_mod X q ltac:(lia)) as E1. pose proof (Nat.div_mod M q ltac:(lia)) as E2.
  pose proof (Nat.mod_upper_bound X q ltac:(lia)). pose proof (Nat.mod_upper_bound M q ltac:(lia)).
  assert (Hlo : X / q + M / q <= (X + M) / q). { apply Nat.div_le_lower_bound; [lia|]. lia. }
  assert (Hhi : (X + M) / q < X / q + M / q + 2). { apply Nat.div_lt_upper_bound; [lia|]. lia. }
  case_decide as H1; [|lia]. subst b. unfold X in *. replace ((1 - 1) * M) with 0 in * by lia. rewrite Nat.div_0_l in * by lia. simpl. lia.
Qed.

(** ** Ranks from argsort *)
Lemma argsorts_lookup vs p : argsorts vs p ->
  length p = length vs /\ NoDup p /\ (forall k i, p !! k = Some i -> i < length vs) /\
  (forall i, i < length vs -> exists k, p !! k = Some i) /\
  forall k l i j v w, p !! k = Some i -> p !! l = Some j -> k < l -> vs !! i = Some v -> vs !! j = Some w -> val_le v w.
Proof.
  intros [Hp (ws & Hws & Hs)]. assert (Hlen : length p = length vs) by (by rewrite Hp, seq_length).
  split_and!; [done| | | |].
  - rewrite Hp. apply NoDup_seq.
  - intros k i Hk. apply elem_of_list_lookup_2 in Hk. rewrite Hp in Hk. apply elem_of_seq in Hk. lia.
  - intros i Hi. assert (i ∈ p) as H by (rewrite Hp; apply elem_of_seq; lia). by apply elem_of_list_lookup in H.
  - intros k l i j v w Hk Hl Hkl Hv Hw. apply mapM_Some_lookup in Hws as [Hwl Hw'].
    assert (Hwk : ws !! k = Some v) by (by rewrite <-(Hw' _ _ Hk)).
    assert (Hwll : ws !! l = Some w) by (by rewrite <-(Hw' _ _ Hl)).
    clear -Hs Hwk Hwll Hkl. revert k l Hwk Hwll Hkl. induction Hs as [|x ws Hs IH Hx]; intros k l Hk Hl Hkl; [done|].
    destruct l as [|l]; [lia|]. destruct k as [|k]; simpl in *.
    + simplify_eq. rewrite Forall_forall in Hx. apply Hx. by eapply elem_of_list_lookup_2.
    + eapply IH; eauto. lia.
Qed.
Lemma val_le_ints a b : val_le (VInt a) (VInt b) -> (a <= b)%Z.
Proof. intros (n & m & Hn & Hm & H). simpl in Hn, Hm. simplify_eq. destruct H as [H|H]; [done|]. by apply num_of_Z_le in H. Qed.
Lemma val_le_floats a b : b <> NaN -> val_le (VFloat a) (VFloat b) -> num_le a b.
Proof. intros Hb (n & m & Hn & Hm & H). simpl in Hn, Hm. simplify_eq. by destruct H. Qed.
(** The argsort of a permutation is its inverse. *)
Lemma argsort_inverse p rs :
  p ≡ₚ seq 0 (length p) -> argsorts ((fun k => VInt (Z.of_nat k)) <$> p) rs ->
  forall i r, rs !! i = Some r -> p !! r = Some i.
Proof.
  intros Hp Hr. apply argsorts_lookup in Hr as (Hlen & Hnd & Hlt & Hsur & Hle). rewrite fmap_length in *.
  (* the values p[rs[0]], p[rs[1]], ... increase *)
  assert (Hndp : NoDup p) by (rewrite Hp; apply NoDup_seq).
  assert (exists ws, mapM (p !!.) rs = Some ws) as [ws Hws].
  { apply mapM_is_Some, Forall_lookup. intros k r Hk. apply lookup_lt_is_Some. eauto. }
  apply mapM_Some_lookup in Hws as [Hwl Hws].
  assert (Hlt' : forall k l v w, ws !! k = Some v -> ws !! l = Some w -> k < l -> v < w).
  { intros k l v w Hv Hw Hkl.
    assert (exists r, rs !! k = Some r) as [r Hrk] by (apply lookup_lt_is_Some; rewrite <-Hwl; by eapply lookup_lt_Some).
    assert (exists r, rs !! l = Some r) as [r' Hrl] by (apply lookup_lt_is_Some; rewrite <-Hwl; by eapply lookup_lt_Some).
    pose proof (eq_sym (Hws _ _ Hrk)) as E1. pose proof (eq_sym (Hws _ _ Hrl)) as E2. rewrite Hv in E1. rewrite Hw in E2.
    assert (v <= w).
    { specialize (Hle k l r r' (VInt (Z.of_nat v)) (VInt (Z.of_nat w)) Hrk Hrl Hkl).
      rewrite !list_lookup_fmap, <-E1, <-E2 in Hle. specialize (Hle eq_refl eq_refl). apply val_le_ints in Hle. lia. }
    assert (v <> w); [|lia]. intros ->. assert (r = r') as <- by (eapply NoDup_lookup; [exact Hndp|by symmetry|by symmetry]).
    assert (k = l); [|lia]. eapply (NoDup_lookup rs); [exact Hnd|exact Hrk|exact Hrl]. }
  assert (Hb : forall k v, ws !! k = Some v -> v < length ws).
  { intros k v Hv. assert (exists r, rs !! k = Some r) as [r Hrk] by (apply lookup_lt_is_Some; rewrite <-Hwl; by eapply lookup_lt_Some).
    pose proof (eq_sym (Hws _ _ Hrk)) as E1. rewrite Hv in E1. symmetry in E1. apply elem_of_list_lookup_2 in E1. rewrite Hp in E1. apply elem_of_seq in E1. lia. }
  assert (Hid : forall k v, ws !! k = Some v -> v = k).
  { assert (Hge : forall k v, ws !! k = Some v -> k <= v).
    { induction k as [|k IH]; intros v Hv; [lia|]. assert (exists u, ws !! k = Some u) as [u Hu].
      { apply lookup_lt_is_Some. apply lookup_lt_Some in Hv. lia. }
      specialize (IH u Hu). specialize (Hlt' k (S k) u v Hu Hv ltac:(lia)). lia. }
    assert (Hle' : forall d k v, k + d = length ws -> ws !! k = Some v -> v <= k).
    { induction d as [|d IH]; intros k v Hkd Hv.
      - apply lookup_lt_Some in Hv. lia.
      - destruct (decide (d = 0)) as [->|Hd].
        + specialize (Hb _ _ Hv). lia.
        + assert (exists u, ws !! (S k) = Some u) as [u Hu] by (apply lookup_lt_is_Some; lia).
          specialize (IH (S k) u ltac:(lia) Hu). specialize (Hlt' k (S k) v u Hv Hu ltac:(lia)). lia. }
    intros k v Hv. specialize (Hge k v Hv). assert (k + (length ws - k) = length ws) as Hkd by (apply lookup_lt_Some in Hv; lia).
    specialize (Hle' _ _ _ Hkd Hv). lia. }
  intros i r Hi. rewrite (Hws _ _ Hi). assert (exists v, ws !! i = Some v) as [v Hv].
  { apply lookup_lt_is_Some. rewrite Hwl. by eapply lookup_lt_Some. }
  rewrite Hv. f_equal. by apply Hid.
Qed.
Lemma ranks_spec argsort (fs : list num) :
  good_argsort argsort -> Forall (fun n => is_finite n = true) fs ->
  let rs := argsort ((fun k => VInt (Z.of_nat k)) <$> argsort (VFloat <$> fs)) in
  rs ≡ₚ seq 0 (length fs) /\
  forall i j a b ri rj, fs !! i = Some a -> fs !! j = Some b -> rs !! i = Some ri -> rs !! j = Some rj -> ri < rj -> num_le a b.
Proof.
  intros Hg Hf rs.
  assert (Hp : argsorts (VFloat <$> fs) (argsort (VFloat <$> fs))).
  { apply (Hg DFloat); [done|]. apply Forall_fmap, Forall_true. done. }
  set (p := argsort (VFloat <$> fs)) in *.
  assert (Hr : argsorts ((fun k => VInt (Z.of_nat k)) <$> p) rs).
  { apply (Hg DInt); [done|]. apply Forall_fmap, Forall_true. done. }
  assert (Hpp : p ≡ₚ seq 0 (length fs)) by (destruct Hp as [Hp _]; by rewrite fmap_length in Hp).
  assert (Hpl : length p = length fs) by (by rewrite Hpp, seq_length).
  split.
  { destruct Hr as [Hr _]. by rewrite fmap_length, Hpl in Hr. }
  intros i j a b ri rj Ha Hb Hri Hrj Hlt.
  assert (Hpp' : p ≡ₚ seq 0 (length p)) by (by rewrite Hpl).
  pose proof (argsort_inverse _ _ Hpp' Hr _ _ Hri) as Ei. pose proof (argsort_inverse _ _ Hpp' Hr _ _ Hrj) as Ej.
  apply argsorts_lookup in Hp as (_ & _ & _ & _ & Hle). apply val_le_floats.
  { rewrite Forall_lookup in Hf. specialize (Hf _ _ Hb). by destruct b. }
  eapply (Hle ri rj i j); eauto; by rewrite list_lookup_fmap, ?Ha, ?Hb.
Qed.

(** ** One lane of quantile *)
Lemma the_bins_binned q fs rs :
  1 < q -> fs <> [] -> rs ≡ₚ seq 0 (length fs) ->
  (forall i j a b ri rj, fs !! i = Some a -> fs !! j = Some b -> rs !! i = Some ri -> rs !! j = Some rj -> ri < rj -> num_le a b) ->
  binned q fs (the_bin (length fs - 1) q <$> rs).
Proof.
  intros Hq Hne Hrs Hord. set (M := length fs - 1). assert (HM : length fs = S M) by (destruct fs; [done|simpl in *; lia]).
  assert (Hr : forall r, r ∈ rs -> r <= M). { intros r Hr. rewrite Hrs in Hr. apply elem_of_seq in Hr. lia. }
  split_and!.
  - rewrite fmap_length, Hrs, seq_length. done.
  - intros b Hb. apply elem_of_list_fmap in Hb as (r & -> & Hr'). apply the_bin_range; auto.
  - exists rs. split_and!; [done..|]. intros i j ri rj bi bj Hi Hj Hbi Hbj Hle.
    rewrite list_lookup_fmap, Hi in Hbi. rewrite list_lookup_fmap, Hj in Hbj. injection Hbi as <-. injection Hbj as <-. apply the_bin_mono; [done..|]. apply Hr. by eapply elem_of_list_lookup_2.
  - assert (Hc : forall b, length (filter (fun x => x = b) (the_bin M q <$> rs)) = length (filter (fun x => x = b) (the_bin M q <$> seq 0 (S M)))).
    { intros b. rewrite <-HM. by rewrite Hrs. }
    intros b b' Hb Hb'. rewrite !Hc. pose proof (bin_size_bounds M q b Hq Hb). pose proof (bin_size_bounds M q b' Hq Hb'). lia.
Qed.
Lemma binned_nil q : binned q [] [].
Proof.
  split_and!; [done|by intros b Hb%elem_of_nil| |intros; simpl; lia].
  exists []. split_and!; [done|by intros|by intros].
Qed.

Lemma finite_positions ns :
  let idx := filter (fun k => is_finite <$> (ns !! k) = Some true) (seq 0 (length ns)) in
  finite_part ns idx (pick ns idx).
Proof.
  intros idx. assert (Hin : forall k, k ∈ idx <-> exists n, ns !! k = Some n /\ is_finite n = true).
  { intros k. unfold idx. rewrite elem_of_list_filter, elem_of_seq. split.
    - intros [H _]. apply fmap_Some in H as (n & Hn & H). eauto.
    - intros (n & Hn & Hf). rewrite Hn. simpl. split; [by rewrite Hf|]. apply lookup_lt_Some in Hn. lia. }
  split_and!.
  - unfold idx. generalize (length ns). intros m. generalize 0. induction m as [|m IH]; intros s; [constructor|].
    cbn [seq]. rewrite filter_cons. destruct (decide _); [|apply IH]. constructor; [apply IH|].
    apply Forall_forall. intros k Hk. apply elem_of_list_filter in Hk as [_ Hk%elem_of_seq]. lia.
  - assert (Hall : Forall (fun k => exists n, ns !! k = Some n) idx).
    { apply Forall_forall. intros k Hk. apply Hin in Hk as (n & ? & _). eauto. }
    clear Hin. unfold pick. induction Hall as [|k ks [n Hn] Hall IH]; [constructor|].
    change (omap (ns !!.) (k :: ks)) with (match ns !! k with Some y => y :: omap (ns !!.) ks | None => omap (ns !!.) ks end).
    rewrite Hn. by constructor.
  - intros k n Hn. rewrite Hin. split; [|eauto]. intros (n' & Hn' & ?). congruence.
Qed.
Lemma finite_part_finite ns ks fs : finite_part ns ks fs -> Forall (fun n => is_finite n = true) fs.
Proof.
  intros (_ & H & Hin). apply Forall_lookup. intros i f Hf.
  destruct (Forall2_lookup_r _ _ _ _ _ H Hf) as (k & Hk & Hn). apply (Hin k f Hn). by eapply elem_of_list_lookup_2.
Qed.
Lemma fold_insert_lookup {A} (ks : list nat) (ms y : list A) k :
  NoDup ks -> length ms = length ks -> (forall i, i ∈ ks -> i < length y) ->
  let r := fold_left (fun y (p : nat * A) => <[p.1 := p.2]> y) (zip ks ms) y in
  length r = length y /\ (k ∉ ks -> r !! k = y !! k) /\ (forall i, ks !! i = Some k -> r !! k = ms !! i).
Proof.
  revert ms y. induction ks as [|x ks IH]; intros ms y Hnd Hl Hlt; destruct ms as [|m ms]; try done; cbn [zip zip_with fold_left].
  apply NoDup_cons in Hnd as [Hx Hnd]. simpl in Hl.
  destruct (IH ms (<[x := m]> y) Hnd ltac:(lia)) as (H1 & H2 & H3).
  { intros i Hi. rewrite insert_length. apply Hlt. by constructor. }
  cbn [fst snd]. split_and!.
  - by rewrite H1, insert_length.
  - intros Hk. apply not_elem_of_cons in Hk as [Hk1 Hk2]. rewrite H2 by done. by rewrite list_lookup_insert_ne.
  - intros [|i] Hi; simpl in Hi.
    + simplify_eq. rewrite H2 by done. apply list_lookup_insert. apply Hlt. constructor.
    + rewrite (H3 i Hi). done.
Qed.
Lemma bin_value_spec q b : 1 < q ->
  num_mul (num_of_Z 2) (num_sub (num_div (num_sub (num_of_nat b) (num_of_Z 1)) (num_sub (num_of_nat q) (num_of_Z 1)))
                       (num_div (num_of_Z 1) (num_of_Z 2))) = bin_value q b.
Proof.
  intros Hq. unfold bin_value, num_sub, num_of_nat, num_of_Z. cbn [num_neg num_add num_div].
  assert (Hd : (Qc_of_Z (Z.of_nat q) + - Qc_of_Z 1)%Qc = Qc_of_Z (Z.of_nat q - 1)).
  { replace (Z.of_nat q - 1)%Z with (Z.of_nat q + - (1))%Z by lia. by rewrite Z2Qc_inj_add, Z2Qc_inj_opp. }
  assert (Hb : (Qc_of_Z (Z.of_nat b) + - Qc_of_Z 1)%Qc = Qc_of_Z (Z.of_nat b - 1)).
  { replace (Z.of_nat b - 1)%Z with (Z.of_nat b + - (1))%Z by lia. by rewrite Z2Qc_inj_add, Z2Qc_inj_opp. }
  rewrite Hd, Hb. assert (H0 : Qc_of_Z (Z.of_nat q - 1) <> 0%Qc) by (apply Qc_of_Z_neq0; lia).
  rewrite !decide_False by done. cbn [num_neg num_add num_mul]. f_equal.
  replace (Qc_of_Z 1) with 1%Qc by (by apply Qc_is_canon). replace (Qc_of_Z 2) with (1 + 1)%Qc by (by apply Qc_is_canon).
  field. split; done.
Qed.
Lemma quantile_lane_spec argsort q ns : good_argsort argsort -> 1 < q -> quantiled q ns (quantile_lane argsort q ns).
Proof.
  intros Hg Hq. unfold quantiled, quantile_lane, quantile_raw. set (idx := filter _ _).
  pose proof (finite_positions ns) as Hfp. fold idx in Hfp. cbv zeta in Hfp.
  pose proof (finite_part_finite _ _ _ Hfp) as Hff. set (fs := pick ns idx) in *.
  destruct Hfp as (Hsort & Hfs & Hin). assert (Hlen : length fs = length idx) by (symmetry; by eapply Forall2_length).
  destruct (ranks_spec argsort fs Hg Hff) as [Hrs Hord]. cbv zeta in Hrs, Hord.
  set (rs := argsort ((fun k => VInt (Z.of_nat k)) <$> argsort (VFloat <$> fs))) in *.
  assert (Hndi : NoDup idx) by (unfold idx; apply NoDup_filter, NoDup_seq).
  assert (Hlti : forall i, i ∈ idx -> i < length (replicate (length ns) NaN)).
  { intros i Hi. rewrite replicate_length. unfold idx in Hi. apply elem_of_list_filter in Hi as [_ Hi%elem_of_seq]. lia. }
  set (bs := the_bin (length fs - 1) q <$> rs).
  assert (Hbs : binned q fs bs).
  { destruct (decide (fs = [])) as [E|E].
    - unfold bs. assert (rs = []) as -> by (apply Permutation_nil; by rewrite Hrs, E). rewrite E. apply binned_nil.
    - by apply the_bins_binned. }
  assert (Hbl : length bs = length idx) by (rewrite <-Hlen; apply Hbs).
  set (y := replicate (length ns) NaN) in *.
  set (r := match idx with [] => y | _ :: _ => _ end).
  assert (Hr : r = fold_left (fun y (p : nat * num) => <[p.1 := p.2]> y) (zip idx (num_of_nat <$> bs)) y).
  { unfold r. destruct idx as [|i0 idx0] eqn:Eidx; [done|]. rewrite <-Eidx in *. f_equal. f_equal. unfold bs.
    rewrite <-list_fmap_compose. apply list_fmap_ext. intros i x Hx. unfold compose.
    assert (HM : length idx = S (length fs - 1)) by (rewrite Hlen, Eidx; simpl; lia). rewrite HM.
    apply (bin_of_spec (length fs - 1)); [done|]. apply elem_of_list_lookup_2 in Hx. rewrite Hrs in Hx. apply elem_of_seq in Hx. lia. }
  assert (Hlk : forall k, length r = length ns /\ (k ∉ idx -> r !! k = y !! k) /\ (forall i, idx !! i = Some k -> r !! k = (num_of_nat <$> bs) !! i)).
  { intros k. rewrite Hr. destruct (fold_insert_lookup idx (num_of_nat <$> bs) y k Hndi) as (H1 & H2 & H3).
    - by rewrite fmap_length.
    - done.
    - split_and!; [|done..]. rewrite H1. unfold y. by rewrite replicate_length. }
  split; [rewrite fmap_length; apply (Hlk 0)|]. rewrite decide_False by lia.
  exists idx, fs, bs. split_and!; [by split_and!|done| |].
  - apply Forall2_same_length_lookup. split; [done|]. intros i k b Hk Hb.
    rewrite list_lookup_fmap. destruct (Hlk k) as (_ & _ & H3). rewrite (H3 i Hk), list_lookup_fmap, Hb.
    cbn [fmap option_fmap option_map]. f_equal. by apply bin_value_spec.
  - intros k n Hn Hnf. rewrite list_lookup_fmap. destruct (Hlk k) as (_ & H2 & _). rewrite H2.
    + unfold y. rewrite lookup_replicate_2 by (by eapply lookup_lt_Some). done.
    + intros Hk. apply (Hin k n Hn) in Hk. congruence.
Qed.
Lemma quantile_lane_length argsort q ns : good_argsort argsort -> 1 < q -> length (quantile_lane argsort q ns) = length ns.
Proof. intros Hg Hq. apply (quantile_lane_spec argsort q ns Hg Hq). Qed.
Lemma quantile_one ns : quantiled 1 ns ((fun n => if is_nan n then NaN else num_of_Z 0) <$> ns).
Proof.
  split; [by rewrite fmap_length|]. rewrite decide_True by done. intros k n Hn. rewrite list_lookup_fmap, Hn. by destruct n.
Qed.

(** ** quantile of a larry *)
Lemma lanes_related_pointwise h y a ax z :
  valid y -> axis_is y a ax -> lanes_related (fun ns ms => ms = h <$> ns) y None z ->
  lanes_related (fun ns ms => ms = h <$> ns) y (Some a) z.
Proof.
  intros Hv Hax H. assert (H' := H). destruct H' as (Hvz & Hd & Hl & _). split_and!; [done..|]. exists ax. split; [done|].
  assert (exists l, llabel y !! ax = Some l) as [l Hla] by (apply lookup_lt_is_Some; apply Hax).
  intros ls Hls.
  assert (exists ns, Forall2 (fun x n => exists v, cell y (with_label ax x ls) = Some v /\ to_num v = Some n /\
     cell z (with_label ax x ls) = Some (VFloat (h n))) l ns) as [ns Hns].
  { assert (Hall : Forall (fun x => exists n v, cell y (with_label ax x ls) = Some v /\ to_num v = Some n /\
     cell z (with_label ax x ls) = Some (VFloat (h n))) l).
    { apply Forall_forall. intros x Hx.
      destruct (lanes_related_cell _ _ _ _ (with_label ax x ls) Hv H) as (ns & ms & k & v & n & m & _ & -> & Hn & Hm & Hc & Ht & Hcz).
      { by eapply with_label_grid. }
      rewrite list_lookup_fmap, Hn in Hm. injection Hm as <-. eauto 6. }
    clear -Hall. induction Hall as [|x l (n & Hn) Hall [ns IH]]; [by exists []|]. exists (n :: ns). by constructor. }
  assert (exists vs, lane_of y ax ls vs /\ numbers vs ns) as (vs & Hvs & Hnum).
  { clear -Hns Hla. assert (exists vs, Forall2 (fun x v => cell y (with_label ax x ls) = Some v) l vs /\ numbers vs ns) as (vs & H1 & H2).
    { clear Hla. induction Hns as [|x n l ns (v & Hc & Ht & _) Hns (vs & H1 & H2)]; [exists []; by split; constructor|].
      exists (v :: vs). split; by constructor. }
    exists vs. split; [|done]. by exists l. }
  exists vs, ns, (h <$> ns). split_and!; [done..| |done]. exists l. rewrite Hl. split; [done|].
  rewrite <-list_fmap_compose. apply Forall2_fmap_r. eapply Forall2_impl; [exact Hns|]. intros x n (v & _ & _ & ?). done.
Qed.

Theorem quantile_total argsort y q axis n :
  good_argsort argsort -> valid y -> numeric_larry y -> lane_length y axis n ->
  (q = 1 \/ 1 < q <= Z.of_nat n /\ (axis <> None -> nonempty y))%Z ->
  exists z, larry_quantile argsort y q axis = Ok z /\ lanes_related (quantiled (Z.to_nat q)) y axis z.
Proof.
  intros Hg Hv Hn Hlen Hq. unfold larry_quantile, np_quantile. rewrite decide_False by lia.
  destruct Hq as [->|[Hq Hne]].
  { rewrite decide_True by done.
    destruct (lanewise_spec (fun ns ms => ms = (fun n => if is_nan n then NaN else num_of_Z 0) <$> ns)
      (fun ns => (fun n => if is_nan n then NaN else num_of_Z 0) <$> ns) y None None) as (x & -> & Hz); [|done..|].
    { intros ns _. by rewrite fmap_length. }
    eexists. split; [done|]. apply (lanes_related_impl (fun ns ms => ms = (fun n => if is_nan n then NaN else num_of_Z 0) <$> ns)); [intros ns ms ->; exact (quantile_one ns)|].
    destruct axis as [a|]; [|done]. destruct Hlen as (ax & l & Hax & _). by eapply lanes_related_pointwise. }
  rewrite decide_False by lia. destruct axis as [a|].
  - destruct Hlen as (ax & l & Hax & Hl & ->). change (nd_ndim (lx y)) with (lndim y).
    rewrite (proj1 (axis_is_py y a ax Hv) Hax). cbn [of_opt mbind res_bind].
    assert (Hs : nd_shape (lx y) !! ax = Some (length l)).
    { change (nd_shape (lx y)) with (lshape y). rewrite <-valid_shape by done. by rewrite list_lookup_fmap, Hl. }
    rewrite Hs. cbn [of_opt mbind res_bind]. rewrite decide_False by lia.
    rewrite (decide_False (P := nd_size (lx y) = 0)) by (apply (size_nonempty y Hv); by apply Hne).
    destruct (lanewise_spec (quantiled (Z.to_nat q)) (quantile_lane argsort (Z.to_nat q)) y (Some ax) (Some a)) as (x & -> & Hz); [|done..|].
    { intros ns _. split; [apply quantile_lane_length|apply quantile_lane_spec]; try done; lia. }
    eexists. split; [done|done].
  - rewrite decide_False.
    2:{ change (nd_size (lx y)) with (lsize y). unfold lsize. simpl in Hlen. rewrite valid_shape in Hlen by done. rewrite <-Hlen. lia. }
    destruct (lanewise_spec (quantiled (Z.to_nat q)) (quantile_lane argsort (Z.to_nat q)) y None None) as (x & -> & Hz); [|done..|].
    { intros ns _. split; [apply quantile_lane_length|apply quantile_lane_spec]; try done; lia. }
    eexists. split; [done|done].
Qed.
Theorem quantile_error argsort y q axis n :
  valid y -> lane_length y axis n -> (q < 1 \/ 1 < q /\ Z.of_nat n < q)%Z -> larry_quantile argsort y q axis = Err ValueError.
Proof.
  intros Hv Hlen Hq. unfold larry_quantile, np_quantile. destruct Hq as [Hq|[Hq1 Hq]]; [by rewrite decide_True|].
  rewrite !decide_False by lia. destruct axis as [a|].
  - destruct Hlen as (ax & l & Hax & Hl & ->). change (nd_ndim (lx y)) with (lndim y).
    rewrite (proj1 (axis_is_py y a ax Hv) Hax). cbn [of_opt mbind res_bind].
    assert (Hs : nd_shape (lx y) !! ax = Some (length l)).
    { change (nd_shape (lx y)) with (lshape y). rewrite <-valid_shape by done. by rewrite list_lookup_fmap, Hl. }
    rewrite Hs. cbn [of_opt mbind res_bind]. by rewrite decide_True.
  - rewrite decide_True; [done|]. change (nd_size (lx y)) with (lsize y). unfold lsize. simpl in Hlen. rewrite valid_shape in Hlen by done. by rewrite <-Hlen.
Qed.
Theorem quantile_axis_error argsort y q a :
  valid y -> (forall ax, ~ axis_is y a ax) -> (1 < q)%Z -> larry_quantile argsort y q (Some a) = Err IndexError.
Proof.
  intros Hv Hax Hq. unfold larry_quantile, np_quantile. rewrite !decide_False by lia. change (nd_ndim (lx y)) with (lndim y).
  destruct (py_index (lndim y) a) as [ax|] eqn:E; [|done]. destruct (Hax ax). by apply axis_is_py.
Qed.
