(** The running sums of the moving window methods. *)
From Verif Require Export Moving MoveFacts ReduceFacts.

Definition keeps_finite (f : num -> num) : Prop := forall n, n <> NaN -> is_finite (f n) = is_finite n.
Lemma keeps_id : keeps_finite (fun n => n).
Proof. done. Qed.
Lemma keeps_square : keeps_finite (fun n => num_mul n n).
Proof. by intros []. Qed.

Definition tot (f : num -> num) (l : list num) : num := num_total (f <$> present l).
Lemma tot_app f l1 l2 : tot f (l1 ++ l2) = num_add (tot f l1) (tot f l2).
Proof. unfold tot. by rewrite present_app, fmap_app, total_app. Qed.
Lemma tot_one f n : tot f [n] = if is_nan n then num_of_Z 0 else f n.
Proof.
  unfold tot, present. rewrite filter_cons. destruct n; cbn [is_nan]; try (rewrite decide_False by naive_solver; done);
    rewrite decide_True by done; rewrite filter_nil; cbn [fmap list_fmap]; unfold num_total; cbn [foldr];
    rewrite num_add_comm; apply num_add_0_l.
Qed.
Lemma take_one {A} (l : list A) i x : l !! i = Some x -> take (S i) l = take i l ++ [x].
Proof. apply take_S_r. Qed.
Lemma num_neg_add a b : num_neg (num_add a b) = num_add (num_neg a) (num_neg b).
Proof. destruct a, b; try done. simpl. f_equal. ring. Qed.
Lemma num_neg_0 : num_neg (num_of_Z 0) = num_of_Z 0.
Proof. unfold num_of_Z. rewrite CovFacts.Qc_of_Z_0. simpl. f_equal. Qed.

Lemma run_sum_diff f w ns i : 1 <= w -> i <= length ns ->
  run_sum f w ns i = num_sub (tot f (take i ns)) (tot f (take (i - w) ns)).
Proof.
  intros Hw. induction i as [|i IH]; intros Hi.
  { unfold tot. rewrite !take_0. unfold num_sub, num_total. cbn [present filter list_filter fmap list_fmap foldr].
    rewrite num_neg_0. by rewrite num_add_0_l. }
  cbn [run_sum]. rewrite IH by lia. destruct (lookup_lt_is_Some_2 ns i) as [n Hn]; [lia|]. rewrite Hn.
  rewrite (take_one ns i n Hn), tot_app, tot_one. unfold num_sub.
  assert (E : (if is_nan n then num_add (tot f (take i ns)) (num_neg (tot f (take (i - w) ns)))
              else num_add (num_add (tot f (take i ns)) (num_neg (tot f (take (i - w) ns)))) (f n)) =
              num_add (num_add (tot f (take i ns)) (if is_nan n then num_of_Z 0 else f n)) (num_neg (tot f (take (i - w) ns)))).
  { destruct (is_nan n).
    - by rewrite (num_add_comm _ (num_of_Z 0)), num_add_0_l.
    - rewrite <-!num_add_assoc. f_equal. apply num_add_comm. }
  rewrite E. destruct (decide (i < w)) as [Hlt|Hlt].
  { replace (S i - w) with (i - w) by lia. done. }
  destruct (lookup_lt_is_Some_2 ns (i - w)) as [o Ho]; [lia|]. rewrite Ho.
  replace (S i - w) with (S (i - w)) by lia. rewrite (take_one ns (i - w) o Ho), tot_app, tot_one, num_neg_add.
  rewrite num_add_assoc. destruct (is_nan o); [|done].
  rewrite num_neg_0. by rewrite (num_add_comm _ (num_of_Z 0)), num_add_0_l.
Qed.
Lemma present_one n : length (present [n]) = if is_nan n then 0 else 1.
Proof. unfold present. rewrite filter_cons. destruct n; cbn [is_nan]; [rewrite decide_True by done|rewrite decide_False by naive_solver|rewrite decide_True by done..]; done. Qed.
Lemma run_count_diff w ns i : 1 <= w -> i <= length ns ->
  run_count w ns i = (Z.of_nat (length (present (take i ns))) - Z.of_nat (length (present (take (i - w) ns))))%Z.
Proof.
  intros Hw. induction i as [|i IH]; intros Hi; [done|].
  cbn [run_count]. rewrite IH by lia. destruct (lookup_lt_is_Some_2 ns i) as [n Hn]; [lia|]. rewrite Hn.
  rewrite (take_one ns i n Hn), present_app, app_length, present_one. destruct (decide (i < w)) as [Hlt|Hlt].
  { replace (S i - w) with (i - w) by lia. destruct (is_nan n); lia. }
  destruct (lookup_lt_is_Some_2 ns (i - w)) as [o Ho]; [lia|]. rewrite Ho.
  replace (S i - w) with (S (i - w)) by lia. rewrite (take_one ns (i - w) o Ho), present_app, app_length, present_one.
  destruct (is_nan n), (is_nan o); lia.
Qed.

Lemma take_win {A} w k (l : list A) : 1 <= w -> w <= S k -> S k <= length l ->
  take (S k) l = take (S k - w) l ++ window_at w 0 k l.
Proof.
  intros Hw Hk Hl. unfold window_at. replace (k + 1 - w - 0) with (S k - w) by lia. rewrite <-take_window. f_equal. lia.
Qed.
Lemma win_drop {A} w k (l : list A) : 1 <= w -> w <= S k -> S k <= length l ->
  drop (S k - w) (take (S k) l) = window_at w 0 k l.
Proof.
  intros Hw Hk Hl. rewrite (take_win w k l) by done. apply drop_app_alt. rewrite take_length. lia.
Qed.
Lemma run_count_window w ns k : 1 <= w -> w <= S k -> S k <= length ns ->
  run_count w ns (S k) = Z.of_nat (length (present (window_at w 0 k ns))).
Proof.
  intros Hw Hk Hl. rewrite run_count_diff by lia. rewrite (take_win w k) by done. rewrite present_app, app_length. lia.
Qed.
Lemma tot_finite f ns : keeps_finite f -> no_infinity ns -> exists q, tot f ns = Fin q.
Proof.
  intros Hf Hi. unfold tot. destruct (finite_fin (f <$> present ns)) as [qs ->]; [|rewrite total_fin; eauto].
  apply Forall_fmap. pose proof (no_infinity_present _ Hi) as H. rewrite Forall_forall in *.
  intros n Hn. simpl. rewrite Hf; [by apply H|]. by apply elem_of_list_filter in Hn as [? _].
Qed.
Lemma tot_infinite f ns : keeps_finite f -> ~ no_infinity ns -> is_finite (tot f ns) = false.
Proof.
  intros Hf Hi. induction ns as [|n ns IH]; [destruct Hi; by intros ? ?%elem_of_nil|].
  change (n :: ns) with ([n] ++ ns). rewrite tot_app, tot_one. destruct (decide (is_inf n = true)) as [Hn|Hn].
  - assert (H : is_finite (f n) = false) by (rewrite Hf; by destruct n). destruct n; try done; cbn [is_nan]; by destruct (f _), (tot f ns).
  - assert (is_finite (tot f ns) = false) as Hx.
    { apply IH. intros H. apply Hi. intros m [-> |Hm]%elem_of_cons; [by apply not_true_is_false|by apply H]. }
    by destruct (if is_nan n then _ else _), (tot f ns).
Qed.
Lemma run_sum_window f w ns k : keeps_finite f -> 1 <= w -> w <= S k -> S k <= length ns ->
  (no_infinity (take (S k - w) ns) -> run_sum f w ns (S k) = num_total (f <$> present (window_at w 0 k ns))) /\
  (~ no_infinity (take (S k - w) ns) -> run_sum f w ns (S k) = NaN).
Proof.
  intros Hf Hw Hk Hl. rewrite run_sum_diff by lia. rewrite (take_win w k) by done. rewrite tot_app. split; intros Hi.
  - destruct (tot_finite f _ Hf Hi) as [q ->]. apply num_add_sub.
  - apply behind_infinity. by apply tot_infinite.
Qed.

Lemma move_lane_length op w ns : length (move_lane op w ns) = length ns.
Proof. unfold move_lane. by rewrite fmap_length, seq_length. Qed.
Lemma move_lane_lookup op w ns k : k < length ns ->
  move_lane op w ns !! k = Some (if decide (k + 1 < w) then NaN else stat_at op w ns (S k)).
Proof.
  intros Hk. unfold move_lane. rewrite list_lookup_fmap, lookup_seq_lt by done. cbn [fmap option_fmap option_map].
  replace (k + 1) with (S k) by lia. done.
Qed.
Lemma some_present (p : list num) : p <> [] -> (0 < Z.of_nat (length p))%Z.
Proof. destruct p; [done|]. cbn. lia. Qed.

Lemma move_sum_spec w ns : 1 <= w -> moving_sum w 0 false ns (move_lane MSum w ns).
Proof.
  intros Hw. split; [apply move_lane_length|]. intros k Hk. rewrite move_lane_lookup by done.
  destruct (decide (k + 1 < w + 0)) as [H|H]; [by rewrite decide_True by lia|]. rewrite decide_False by lia.
  destruct (run_sum_window (fun n => n) w ns k) as [H1 H2]; [apply keeps_id|lia..|].
  unfold stat_at. rewrite run_count_window by lia. replace (k + 1 - w - 0) with (S k - w) by lia.
  split; intros Hi; f_equal.
  - unfold window_sum. rewrite H1, list_fmap_id by done. destruct (decide (present _ = [])) as [E|E]; [by rewrite E|].
    by rewrite decide_True by (by apply some_present).
  - rewrite H2 by done. by destruct (decide _).
Qed.
Lemma move_mean_spec w ns : 1 <= w -> moving_by (reduced_or_nan RMean) w ns (move_lane MMean w ns).
Proof.
  intros Hw. split; [apply move_lane_length|]. intros k Hk. rewrite move_lane_lookup by done. eexists. split; [done|].
  destruct (decide (k + 1 < w)) as [H|H]; [done|].
  destruct (run_sum_window (fun n => n) w ns k) as [H1 H2]; [apply keeps_id|lia..|].
  unfold stat_at. rewrite run_count_window by lia. replace (k + 1 - w) with (S k - w) by lia. split; intros Hi.
  - rewrite H1, list_fmap_id by done. unfold reduced_or_nan. destruct (decide (present _ = [])) as [E|E]; [by rewrite E|].
    by rewrite decide_True by (by apply some_present).
  - rewrite H2 by done. by destruct (decide _).
Qed.

Lemma no_infinity_dec ns : no_infinity ns + { e | e ∈ ns /\ is_inf e = true }.
Proof.
  induction ns as [|n ns [IH|(e & He & Hi)]]; [left; by intros ? ?%elem_of_nil| |].
  - destruct (is_inf n) eqn:E; [right; exists n; split; [left|done]|left]. by intros m [-> |Hm]%elem_of_cons; [|apply IH].
  - right. exists e. split; [by right|done].
Qed.
Lemma num_of_Z_sub0 n : num_of_Z (Z.of_nat n - 0) = num_of_nat n.
Proof. by rewrite Z.sub_0_r. Qed.
Lemma Qc_ltb_pos q : (0 < q)%Qc -> Qc_ltb q 0 = false.
Proof. intros H. apply not_true_iff_false. rewrite Qc_ltb_lt. intros H'. by apply (Qclt_not_eq _ _ (Qclt_trans _ _ _ H H')). Qed.
(** The two formulas for the variance. *)
Lemma Qc_sum_shift qs m :
  Qc_sum ((fun q => let d := (q + - m)%Qc in (d * d)%Qc) <$> qs) =
  (Qc_sum ((fun q => q * q)%Qc <$> qs) - 2 * m * Qc_sum qs + Qc_of_Z (Z.of_nat (length qs)) * m * m)%Qc.
Proof.
  induction qs as [|q qs IH].
  { unfold Qc_sum. cbn [fmap list_fmap foldr length]. change (Z.of_nat 0) with 0%Z. rewrite CovFacts.Qc_of_Z_0. ring. }
  rewrite !fmap_cons. unfold Qc_sum in *. cbn [foldr length]. rewrite IH.
  rewrite Nat2Z.inj_succ, <-Z.add_1_r, Z2Qc_inj_add. replace (Qc_of_Z 1) with 1%Qc by (by apply Qc_is_canon). ring.
Qed.
Lemma var_running p : p <> [] -> Forall (fun n => n <> NaN) p ->
  num_div (num_sub (num_total ((fun n => num_mul n n) <$> p)) (num_div (num_mul (num_total p) (num_total p)) (num_of_nat (length p)))) (num_of_nat (length p)) =
  num_div (num_total ((fun n => num_mul (num_sub n (mean_of p)) (num_sub n (mean_of p))) <$> p)) (num_of_Z (Z.of_nat (length p) - 0)).
Proof.
  intros Hne Hp. destruct (no_infinity_dec p) as [Hi|(e & He & Hinf)].
  - rewrite num_of_Z_sub0. destruct (finite_fin p) as [qs ->].
    { apply Forall_forall. intros n Hn. rewrite Forall_forall in Hp. specialize (Hi n Hn). specialize (Hp n Hn). by destruct n. }
    assert (Hqs : qs <> []) by (by intros ->). pose proof (num_var_fin qs Hqs) as H. rewrite num_of_Z_sub0 in H. rewrite H.
    rewrite fmap_length, total_fin, <-list_fmap_compose.
    change ((fun n => num_mul n n) ∘ Fin) with (fun q => Fin (q * q)%Qc).
    rewrite (list_fmap_compose (fun q => (q * q)%Qc) Fin), total_fin, Qc_sum_shift.
    unfold num_of_nat, num_of_Z. set (N := Qc_of_Z _). assert (HN : N <> 0%Qc) by (apply Qc_of_Z_neq0; destruct qs; [done|simpl; lia]).
    unfold num_sub. cbn [num_mul num_div]. rewrite decide_False by done. cbn [num_neg num_add num_div]. rewrite decide_False by done.
    f_equal. by field.
  - assert (Hn : (0 < Qc_of_Z (Z.of_nat (length p)))%Qc) by (apply Qc_of_Z_pos; destruct p; [done|simpl; lia]).
    assert (Ht : num_total p = e \/ num_total p = NaN).
    { apply elem_of_list_split in He as (l1 & l2 & ->). rewrite total_app. unfold num_total. cbn [foldr].
      destruct e; try done; destruct (foldr _ _ l1), (foldr _ _ l2); cbn; auto. }
    assert (Hs : num_total ((fun n => num_mul n n) <$> p) = PInf \/ num_total ((fun n => num_mul n n) <$> p) = NaN).
    { assert (H1 : num_total ((fun n => num_mul n n) <$> p) <> NInf).
      { clear. induction p as [|n p IH]; [done|]. rewrite fmap_cons. unfold num_total in *. cbn [foldr].
        intros H. apply IH. destruct n; cbn [num_mul] in H; destruct (foldr _ _ _); done. }
      apply elem_of_list_split in He as (l1 & l2 & ->). rewrite fmap_app, fmap_cons, total_app in *. unfold num_total in *. cbn [foldr] in *.
      destruct e; try done; cbn [num_mul] in *; destruct (foldr _ _ (_ <$> l1)), (foldr _ _ (_ <$> l2)); cbn in *; auto; done. }
    assert (Hm : mean_of p = e \/ mean_of p = NaN).
    { unfold mean_of, num_of_nat, num_of_Z. destruct Ht as [-> | ->]; [|by right]. left.
      destruct e; try done; cbn [num_div]; by rewrite (Qc_ltb_pos _ Hn). }
    assert (Hr : num_total ((fun n => num_mul (num_sub n (mean_of p)) (num_sub n (mean_of p))) <$> p) = NaN).
    { assert (num_mul (num_sub e (mean_of p)) (num_sub e (mean_of p)) = NaN) as E by (destruct Hm as [-> | ->]; by destruct e).
      apply elem_of_list_split in He as (l1 & l2 & Hp').
      set (g := fun n => num_mul (num_sub n (mean_of p)) (num_sub n (mean_of p))) in *. rewrite Hp'.
      rewrite fmap_app, fmap_cons, total_app. unfold num_total. cbn [foldr]. fold (g e) in E. rewrite E. by destruct (foldr _ _ _). }
    rewrite Hr. change (num_div NaN _) with NaN.
    destruct Hs as [-> | ->]; [|done]. destruct Ht as [-> | ->]; [|done]. unfold num_of_nat, num_of_Z.
    destruct e; try done; cbn [num_mul num_div]; rewrite (Qc_ltb_pos _ Hn); done.
Qed.
Lemma move_std_spec root w ns : root NaN = NaN -> 1 <= w -> moving_by (std_or_nan root) w ns (move_lane (MStd root) w ns).
Proof.
  intros Hroot Hw. split; [apply move_lane_length|]. intros k Hk. rewrite move_lane_lookup by done. eexists. split; [done|].
  destruct (decide (k + 1 < w)) as [H|H]; [done|].
  destruct (run_sum_window (fun n => n) w ns k) as [H1 H2]; [apply keeps_id|lia..|].
  destruct (run_sum_window (fun n => num_mul n n) w ns k) as [H3 H4]; [apply keeps_square|lia..|].
  unfold stat_at. rewrite run_count_window by lia. replace (k + 1 - w) with (S k - w) by lia. split; intros Hi.
  - rewrite H1, H3, list_fmap_id by done. unfold std_or_nan, reduced_or_nan. destruct (decide (present _ = [])) as [E|E].
    { rewrite E. by exists NaN. }
    rewrite decide_True by (by apply some_present). eexists. split; [done|]. f_equal. apply var_running; [done|].
    apply Forall_forall. by intros n [? _]%elem_of_list_filter.
  - rewrite H2, H4 by done. by destruct (decide _).
Qed.
Lemma move_ends_spec op w ns : op = RMin \/ op = RMax -> 1 <= w ->
  moved_by (reduced_or_nan op) w ns (move_lane (match op with RMin => MMin | _ => MMax end) w ns).
Proof.
  intros Hop Hw. split; [apply move_lane_length|]. intros k Hk. rewrite move_lane_lookup by done. eexists. split; [done|].
  destruct (decide (k + 1 < w)) as [H|H]; [done|]. unfold stat_at, reduced_or_nan. rewrite win_drop by lia.
  fold (present (window_at w 0 k ns)). set (p := present _).
  assert (Hp : Forall (fun n => n <> NaN) p) by (apply Forall_forall; by intros n [? _]%elem_of_list_filter).
  clearbody p. destruct (decide (p = [])) as [-> |E]; [by destruct Hop as [-> | ->]|].
  pose proof (float_red_spec op p) as Hr. destruct Hop as [-> | ->].
  - specialize (Hr ltac:(done) ltac:(done) ltac:(done) E Hp). by destruct p.
  - specialize (Hr ltac:(done) ltac:(done) ltac:(done) E Hp). by destruct p.
Qed.

Lemma move_total op (R : list num -> list num -> Prop) y w a ax l :
  (forall ns, R ns (move_lane op (Z.to_nat w) ns)) ->
  valid y -> numeric_larry y -> axis_is y a ax -> llabel y !! ax = Some l ->
  (1 <= w <= Z.of_nat (length l))%Z ->
  exists z, larry_move op y w (Some a) = Ok z /\ lanes_related R y (Some a) z.
Proof.
  intros HR Hv Hn Hax Hl Hw. unfold larry_move, bn_move.
  change (nd_ndim (lx y)) with (lndim y). change (nd_arr (lx y)) with (larr y).
  rewrite (proj1 (axis_is_py y a ax Hv) Hax). cbn [of_opt mbind res_bind].
  rewrite (valid_axis_len y ax l) by done. cbn [of_opt mbind res_bind].
  rewrite check_numeric_ok by done. cbn [mbind res_bind].
  rewrite decide_False by lia.
  destruct (lanewise_spec R (move_lane op (Z.to_nat w)) y (Some ax) (Some a)) as (x & -> & Hx); try done.
  { intros ns _. split; [apply move_lane_length|apply HR]. }
  cbn [mbind res_bind]. eauto.
Qed.
Theorem move_sum_total : forall y w a ax l,
  valid y -> numeric_larry y -> axis_is y a ax -> llabel y !! ax = Some l -> (1 <= w <= Z.of_nat (length l))%Z ->
  exists z, larry_move MSum y w (Some a) = Ok z /\ lanes_related (moving_sum (Z.to_nat w) 0 false) y (Some a) z.
Proof. intros. eapply move_total; try done. intros ns. apply move_sum_spec; lia. Qed.
Theorem move_mean_total : forall y w a ax l,
  valid y -> numeric_larry y -> axis_is y a ax -> llabel y !! ax = Some l -> (1 <= w <= Z.of_nat (length l))%Z ->
  exists z, larry_move MMean y w (Some a) = Ok z /\
    lanes_related (moving_by (reduced_or_nan RMean) (Z.to_nat w)) y (Some a) z.
Proof. intros. eapply move_total; try done. intros ns. apply move_mean_spec; lia. Qed.
Theorem move_std_total : forall root y w a ax l,
  root NaN = NaN ->
  valid y -> numeric_larry y -> axis_is y a ax -> llabel y !! ax = Some l -> (1 <= w <= Z.of_nat (length l))%Z ->
  exists z, larry_move (MStd root) y w (Some a) = Ok z /\
    lanes_related (moving_by (std_or_nan root) (Z.to_nat w)) y (Some a) z.
Proof. intros. eapply move_total; try done. intros ns. apply move_std_spec; [try done; auto..|]; lia. Qed.
Theorem move_min_total : forall y w a ax l,
  valid y -> numeric_larry y -> axis_is y a ax -> llabel y !! ax = Some l -> (1 <= w <= Z.of_nat (length l))%Z ->
  exists z, larry_move MMin y w (Some a) = Ok z /\
    lanes_related (moved_by (reduced_or_nan RMin) (Z.to_nat w)) y (Some a) z.
Proof. intros. eapply move_total; try done. intros ns. apply (move_ends_spec RMin); [try done; auto..|]; lia. Qed.
Theorem move_max_total : forall y w a ax l,
  valid y -> numeric_larry y -> axis_is y a ax -> llabel y !! ax = Some l -> (1 <= w <= Z.of_nat (length l))%Z ->
  exists z, larry_move MMax y w (Some a) = Ok z /\
    lanes_related (moved_by (reduced_or_nan RMax) (Z.to_nat w)) y (Some a) z.
Proof. intros. eapply move_total; try done. intros ns. apply (move_ends_spec RMax); [try done; auto..|]; lia. Qed.
Lemma move_error op y w :
  valid y -> numeric_larry y ->
  larry_move op y w None = Err ValueError /\
  (forall a, (forall ax, ~ axis_is y a ax) -> larry_move op y w (Some a) = Err ValueError) /\
  (forall a ax l, axis_is y a ax -> llabel y !! ax = Some l -> (w < 1 \/ Z.of_nat (length l) < w)%Z ->
     larry_move op y w (Some a) = Err ValueError).
Proof.
  intros Hv Hn. unfold larry_move, bn_move. change (nd_ndim (lx y)) with (lndim y). change (nd_arr (lx y)) with (larr y).
  split_and!; [done| |].
  - intros a Hax. destruct (py_index (lndim y) a) as [ax|] eqn:E; [|done]. destruct (Hax ax). by apply axis_is_py.
  - intros a ax l Hax Hl Hw. rewrite (proj1 (axis_is_py y a ax Hv) Hax). cbn [of_opt mbind res_bind].
    rewrite (valid_axis_len y ax l) by done. cbn [of_opt mbind res_bind].
    rewrite check_numeric_ok by done. cbn [mbind res_bind]. by rewrite decide_True.
Qed.

(** ** move_sum and movingsum *)
Lemma moving_sum_fun w s norm ns ms ms' : moving_sum w s norm ns ms -> moving_sum w s norm ns ms' -> ms = ms'.
Proof.
  intros [Hl H] [Hl' H']. apply list_eq. intros k. destruct (decide (k < length ns)) as [Hk|Hk].
  - specialize (H k Hk). specialize (H' k Hk). destruct (decide (k + 1 < w + s)); [by rewrite H, H'|].
    destruct H as [H1 H2], H' as [H1' H2'].
    destruct (no_infinity_dec (take (k + 1 - w - s) ns)) as [Hi|(e & He & Hinf)].
    + by rewrite H1, H1'.
    + assert (~ no_infinity (take (k + 1 - w - s) ns)) by (intros Hi; specialize (Hi e He); congruence). by rewrite H2, H2'.
  - rewrite !lookup_ge_None_2 by lia. done.
Qed.
Lemma lanes_related_fun (R : list num -> list num -> Prop) y a z z' :
  valid y -> (forall ns ms ms', R ns ms -> R ns ms' -> ms = ms') ->
  lanes_related R y (Some a) z -> lanes_related R y (Some a) z' -> z = z'.
Proof.
  intros Hv HR. intros (Hz & Hd & Hl & ax & Hax & H) (Hz' & Hd' & Hl' & ax' & Hax' & H').
  assert (ax' = ax) as -> by (unfold axis_is in *; lia).
  apply larry_ext; [done..|congruence|congruence|]. intros ls Hg. rewrite Hl in Hg.
  assert (exists l, llabel y !! ax = Some l) as [l Hla]. { apply lookup_lt_is_Some. apply Hax. }
  destruct (Forall2_lookup_r _ _ _ _ _ Hg Hla) as (x & Hx & Hxl).
  assert (Hg' : in_grid (delete ax (llabel y)) (delete ax ls)) by (by apply Forall2_delete).
  destruct (H _ Hg') as (vs & ns & ms & Hvs & Hns & Hms & Hr).
  destruct (H' _ Hg') as (vs' & ns' & ms' & Hvs' & Hns' & Hms' & Hr').
  rewrite (lane_of_unique _ _ _ _ _ Hvs' Hvs) in *. rewrite (numbers_fun _ _ _ Hns' Hns) in *.
  rewrite (HR _ _ _ Hr' Hr) in *. destruct Hms as (l1 & Hl1 & Hms), Hms' as (l2 & Hl2 & Hms').
  assert (l1 = l) as -> by congruence. assert (l2 = l) as -> by congruence.
  apply elem_of_list_lookup in Hxl as [i Hi].
  destruct (Forall2_lookup_l _ _ _ _ _ Hms Hi) as (v & Hv1 & Hc). destruct (Forall2_lookup_l _ _ _ _ _ Hms' Hi) as (v' & Hv2 & Hc').
  rewrite with_label_delete in Hc, Hc' by done. congruence.
Qed.
Lemma move_sum_movingsum y w a ax :
  valid y -> numeric_larry y -> axis_is y a ax ->
  larry_move MSum y w (Some a) = (x ← np_movingsum (lx y) w 0 a false; Ok (Larry x (llabel y))).
Proof.
  intros Hv Hn Hax. assert (exists l, llabel y !! ax = Some l) as [l Hl]. { apply lookup_lt_is_Some. apply Hax. }
  destruct (decide (w < 1 \/ Z.of_nat (length l) < w)%Z) as [Hw|Hw].
  - destruct (move_error MSum y w Hv Hn) as (_ & _ & He).
    destruct (movingsum_error (lx y) y w 0 a false eq_refl Hv) as (H1 & H2 & _).
    rewrite (He a ax l) by done. destruct Hw as [Hw|Hw]; [by rewrite H1|]. destruct (H2 ax l Hax Hl) as [H3 _]. by rewrite H3.
  - assert (Hw' : (1 <= w <= Z.of_nat (length l))%Z) by lia.
    destruct (move_total MSum (moving_sum (Z.to_nat w) 0 false) y w a ax l) as (z & -> & Hz); try done.
    { intros ns. apply move_sum_spec. lia. }
    destruct (movingsum_total (lx y) y w 0 a false ax l) as (x & -> & Hx); try done; [lia|]. cbn [mbind res_bind]. f_equal.
    eapply lanes_related_fun; [exact Hv| |exact Hz|exact Hx]. intros ns ms ms'. apply moving_sum_fun.
Qed.
