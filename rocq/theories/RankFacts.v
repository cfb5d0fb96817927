(** Proofs about ranking and lastrank. *)
From Verif Require Export FarrayFacts CovFacts.

(** ** Counting *)
Lemma filter_length_ext {A} (P Q : A -> Prop) `{!forall x, Decision (P x), !forall x, Decision (Q x)} (l : list A) :
  (forall x, x ∈ l -> P x <-> Q x) -> length (filter P l) = length (filter Q l).
Proof.
  induction l as [|x l IH]; intros HH; [done|]. rewrite !filter_cons.
  assert (IH' : length (filter P l) = length (filter Q l)) by (apply IH; intros y Hy; apply HH; by constructor).
  destruct (decide (P x)) as [Hp|Hp], (decide (Q x)) as [Hq|Hq]; simpl; try lia.
  - destruct Hq. apply HH; [constructor|done].
  - destruct Hp. apply HH; [constructor|done].
Qed.
Lemma filter_length_lt {A} (P Q : A -> Prop) `{!forall x, Decision (P x), !forall x, Decision (Q x)} (l : list A) y :
  (forall x, P x -> Q x) -> y ∈ l -> Q y -> ~ P y -> length (filter P l) < length (filter Q l).
Proof.
  intros HH. induction l as [|x l IH]; intros Hy Hq Hp; [by apply elem_of_nil in Hy|]. rewrite !filter_cons.
  assert (Hle : length (filter P l) <= length (filter Q l)).
  { clear IH Hy. induction l as [|z l IH]; [done|]. rewrite !filter_cons. destruct (decide (P z)), (decide (Q z)); simpl; try lia. naive_solver. }
  apply elem_of_cons in Hy as [->|Hy].
  - rewrite decide_False, decide_True by done. simpl. lia.
  - specialize (IH Hy Hq Hp). destruct (decide (P x)), (decide (Q x)); simpl; try lia. naive_solver.
Qed.
Lemma filter_length_split {A} (P Q : A -> Prop) `{!forall x, Decision (P x), !forall x, Decision (Q x)} (l : list A) :
  (forall x, P x -> ~ Q x) -> length (filter (fun x => P x \/ Q x) l) = length (filter P l) + length (filter Q l).
Proof.
  intros HH. induction l as [|x l IH]; [done|]. rewrite !filter_cons.
  destruct (decide (P x)) as [Hp|Hp], (decide (Q x)) as [Hq|Hq].
  - by destruct (HH x).
  - rewrite decide_True by auto. simpl. lia.
  - rewrite decide_True by auto. simpl. lia.
  - rewrite decide_False by naive_solver. done.
Qed.

Lemma present_filter ns : (Z.of_nat (length ns) - Z.of_nat (length (filter (fun n => is_nan n = true) ns)))%Z = Z.of_nat (length (present ns)).
Proof.
  unfold present. induction ns as [|n ns IH]; [done|]. rewrite !filter_cons.
  destruct n; simpl; lia.
Qed.
Lemma count_eq_pos n ns : n ∈ ns -> 0 < count_eq n ns.
Proof. intros H. unfold count_eq. destruct (filter _ ns) as [|x l] eqn:E; simpl; [|lia]. assert (n ∈ filter (fun m => m = n) ns) as Hn by (by apply elem_of_list_filter). rewrite E in Hn. by apply elem_of_nil in Hn. Qed.
Lemma count_le_present n ns : n <> NaN -> count_lt n ns + count_eq n ns <= length (present ns).
Proof.
  intros Hn. unfold count_lt, count_eq, present. rewrite <-filter_length_split.
  - induction ns as [|m ns IH]; [done|]. rewrite !filter_cons.
    destruct (decide (num_lt m n \/ m = n)) as [H|H]; [|destruct (decide (m <> NaN)); simpl; lia].
    rewrite decide_True; [simpl; lia|]. destruct H as [H|H]; [apply (num_lt_nan _ _ H)|congruence].
  - intros m Hm ->. by eapply num_lt_irrefl.
Qed.
Lemma count_lt_step a b ns : num_lt a b -> count_lt a ns + count_eq a ns <= count_lt b ns.
Proof.
  intros H. unfold count_lt, count_eq. rewrite <-filter_length_split.
  - induction ns as [|m ns IH]; [done|]. rewrite !filter_cons.
    destruct (decide (num_lt m a \/ m = a)) as [Hm|Hm]; [|destruct (decide (num_lt m b)); simpl; lia].
    rewrite decide_True; [simpl; lia|]. destruct Hm as [Hm| ->]; [by eapply num_lt_trans|done].
  - intros m Hm ->. by eapply num_lt_irrefl.
Qed.

(** ** One lane of ranking *)
Lemma nanrankdata_lookup ns k n : ns !! k = Some n -> nanrankdata ns !! k = Some (nanrank ns n).
Proof. intros H. unfold nanrankdata. by rewrite list_lookup_fmap, H. Qed.
Lemma nanrank_nan ns : nanrank ns NaN = NaN.
Proof. done. Qed.
Lemma nanrank_fin ns n : n <> NaN ->
  nanrank ns n = Fin (Qc_of_Z (Z.of_nat (count_lt n ns)) + Qc_of_Z (Z.of_nat (count_eq n ns) + 1) / Qc_of_Z 2)%Qc.
Proof.
  intros Hn. unfold nanrank. destruct (is_nan n) eqn:E; [by destruct n|].
  rewrite (filter_length_ext (fun m => num_ltb m n = true) (fun m => num_lt m n)) by (intros; apply num_ltb_lt).
  rewrite (filter_length_ext (fun m => num_eqb m n = true) (fun m => m = n)).
  2:{ intros m _. rewrite num_eqb_same. unfold num_same. naive_solver. }
  fold (count_lt n ns) (count_eq n ns). unfold num_of_nat, num_of_Z. cbn [num_div].
  rewrite decide_False by done. cbn [num_add]. do 3 f_equal. f_equal. lia.
Qed.

Lemma ranking_lane_length ndtri norm ns : length (ranking_lane ndtri norm ns) = length ns.
Proof.
  unfold ranking_lane. destruct norm; rewrite zip_with_length, ?fmap_length; unfold nanrankdata; rewrite fmap_length; lia.
Qed.

Lemma Qc_of_Z_neq0 z : z <> 0%Z -> Qc_of_Z z <> 0%Qc.
Proof. intros H E. apply H. rewrite <-Qc_of_Z_0 in E. by apply Z2Qc_inj_iff. Qed.
Lemma lookup_present ns k n : ns !! k = Some n -> n <> NaN -> 1 <= length (present ns).
Proof.
  intros H Hn. assert (n ∈ present ns) as Hp by (apply elem_of_list_filter; split; [done|by eapply elem_of_list_lookup_2]).
  destruct (present ns); [by apply elem_of_nil in Hp|simpl; lia].
Qed.

Lemma ranking_one ndtri ns : ranked ns (ranking_lane ndtri NormOne ns).
Proof.
  split; [apply ranking_lane_length|]. intros k n Hk. unfold ranking_lane. rewrite present_filter.
  set (c := length (present ns)). rewrite lookup_zip_with. rewrite !list_lookup_fmap.
  rewrite (nanrankdata_lookup _ _ _ Hk), Hk. cbn [fmap option_fmap option_map mbind option_bind].
  eexists. split; [done|]. destruct (decide (n = NaN)) as [->|Hn].
  { rewrite nanrank_nan. simpl. by rewrite andb_false_r. }
  replace (negb (is_nan n)) with true by (by destruct n). rewrite andb_true_r.
  destruct (decide (c = 1)) as [Hc|Hc].
  { rewrite bool_decide_eq_true_2 by lia. done. }
  rewrite bool_decide_eq_false_2 by lia. pose proof (lookup_present _ _ _ Hk Hn) as Hp. fold c in Hp.
  rewrite nanrank_fin by done. unfold num_of_Z, num_sub. cbn [num_neg num_add num_div].
  rewrite decide_False by (apply Qc_of_Z_neq0; lia). cbn [num_mul num_add].
  eexists. split; [done|].
  replace (2 * Z.of_nat (count_lt n ns) + Z.of_nat (count_eq n ns) - 1)%Z
    with (2 * Z.of_nat (count_lt n ns) + (Z.of_nat (count_eq n ns) + 1) + -2)%Z by lia.
  rewrite !Z2Qc_inj_add, Z2Qc_inj_mul.
  assert (H0 : Qc_of_Z (Z.of_nat c - 1) <> 0%Qc) by (apply Qc_of_Z_neq0; lia).
  revert H0. generalize (Qc_of_Z (Z.of_nat c - 1)). intros d Hd.
  replace (Qc_of_Z 1) with 1%Qc by (by apply Qc_is_canon).
  replace (Qc_of_Z 2) with (1 + 1)%Qc by (by apply Qc_is_canon).
  replace (Qc_of_Z (-2)) with (- (1 + 1))%Qc by (by apply Qc_is_canon).
  field. split; [done|]. done.
Qed.

(** ** Order and range *)
Lemma Qc_of_Z_pos z : (0 < z)%Z -> (0 < Qc_of_Z z)%Qc.
Proof. intros H. rewrite <-Qc_of_Z_0. apply (num_of_Z_lt 0 z). exact H. Qed.
Lemma Qcmult_lt_iff_r x y d : (0 < d)%Qc -> (x < y)%Qc <-> (x * d < y * d)%Qc.
Proof.
  intros Hd. split; intros H; [by apply Qcmult_lt_compat_r|].
  destruct (Qclt_le_dec x y) as [|Hle]; [done|]. exfalso.
  apply (Qclt_not_le _ _ H). apply Qcmult_le_compat_r; [done|]. by apply Qclt_le_weak.
Qed.
Lemma scaled_lt p q d z1 z2 :
  (0 < d)%Qc -> ((p + 1) * d)%Qc = Qc_of_Z z1 -> ((q + 1) * d)%Qc = Qc_of_Z z2 -> (p < q)%Qc <-> (z1 < z2)%Z.
Proof.
  intros Hd H1 H2. rewrite Z2Qc_inj_lt, <-H1, <-H2. rewrite <-Qcmult_lt_iff_r by done.
  rewrite (Qcplus_comm p), (Qcplus_comm q). apply Qcplus_lt_mono_l.
Qed.
Lemma scaled_eq p q d z :
  (0 < d)%Qc -> ((p + 1) * d)%Qc = Qc_of_Z z -> ((q + 1) * d)%Qc = Qc_of_Z z -> p = q.
Proof.
  intros Hd H1 H2. rewrite <-H2 in H1. assert (d <> 0%Qc) as Hd0 by (intros ->; by apply (Qclt_not_eq 0 0)).
  assert (H3 : ((p + 1) * d * / d)%Qc = ((q + 1) * d * / d)%Qc) by (by rewrite H1).
  rewrite <-!Qcmult_assoc, Qcmult_inv_r, !Qcmult_1_r in H3 by done.
  replace p with (p + 1 - 1)%Qc by ring. rewrite H3. ring.
Qed.

Lemma ranked_nan ns ms k m : ranked ns ms -> ns !! k = Some NaN -> ms !! k = Some m -> m = NaN.
Proof. intros [_ H] Hk Hm. destruct (H k NaN Hk) as (m' & Hm' & E). rewrite decide_True in E by done. congruence. Qed.
Lemma ranked_one ns ms k n m :
  ranked ns ms -> length (present ns) = 1 -> ns !! k = Some n -> n <> NaN -> ms !! k = Some m -> m = num_of_Z 0.
Proof. intros [_ H] H1 Hk Hn Hm. destruct (H k n Hk) as (m' & Hm' & E). rewrite decide_False, decide_True in E by done. congruence. Qed.
Lemma ranked_many ns ms k n m :
  ranked ns ms -> length (present ns) <> 1 -> ns !! k = Some n -> n <> NaN -> ms !! k = Some m ->
  exists q, m = Fin q /\ ((q + 1) * Qc_of_Z (Z.of_nat (length (present ns)) - 1))%Qc =
     Qc_of_Z (2 * Z.of_nat (count_lt n ns) + Z.of_nat (count_eq n ns) - 1) /\ (0 < Qc_of_Z (Z.of_nat (length (present ns)) - 1))%Qc /\
     1 <= count_eq n ns /\ 1 < length (present ns).
Proof.
  intros [_ H] H1 Hk Hn Hm. destruct (H k n Hk) as (m' & Hm' & E). rewrite !decide_False in E by done.
  destruct E as (q & -> & E). exists q. pose proof (lookup_present _ _ _ Hk Hn). pose proof (count_eq_pos n ns (elem_of_list_lookup_2 _ _ _ Hk)).
  split_and!; [congruence|done|apply Qc_of_Z_pos; lia|lia|lia].
Qed.
Lemma ranked_fun ns ms1 ms2 : ranked ns ms1 -> ranked ns ms2 -> ms1 = ms2.
Proof.
  intros H1 H2. apply list_eq_same_length with (length ns); [apply H2|apply H1|].
  intros k m1 m2 Hk Hm1 Hm2. apply lookup_lt_is_Some in Hk as [n Hn].
  destruct (decide (n = NaN)) as [->|Hnn]; [by rewrite (ranked_nan _ _ _ _ H1 Hn Hm1), (ranked_nan _ _ _ _ H2 Hn Hm2)|].
  destruct (decide (length (present ns) = 1)) as [H1'|H1'].
  { by rewrite (ranked_one _ _ _ _ _ H1 H1' Hn Hnn Hm1), (ranked_one _ _ _ _ _ H2 H1' Hn Hnn Hm2). }
  destruct (ranked_many _ _ _ _ _ H1 H1' Hn Hnn Hm1) as (q1 & -> & E1 & Hd & _).
  destruct (ranked_many _ _ _ _ _ H2 H1' Hn Hnn Hm2) as (q2 & -> & E2 & _).
  f_equal. by eapply scaled_eq.
Qed.
Lemma present_single ns k n j m :
  length (present ns) = 1 -> ns !! k = Some n -> n <> NaN -> ns !! j = Some m -> m <> NaN -> n = m.
Proof.
  intros H1 Hk Hn Hj Hm.
  assert (n ∈ present ns) as Hpn by (apply elem_of_list_filter; split; [done|by eapply elem_of_list_lookup_2]).
  assert (m ∈ present ns) as Hpm by (apply elem_of_list_filter; split; [done|by eapply elem_of_list_lookup_2]).
  destruct (present ns) as [|x [|]]; try done. apply elem_of_list_singleton in Hpn, Hpm. congruence.
Qed.
Lemma ranked_order ns ms : ranked ns ms -> same_order ns ms.
Proof.
  intros H i j a b m n Hi Hj Hm Hn. split.
  2:{ intros <-. destruct (decide (a = NaN)) as [->|Ha]; [by rewrite (ranked_nan _ _ _ _ H Hi Hm), (ranked_nan _ _ _ _ H Hj Hn)|].
      destruct (decide (length (present ns) = 1)) as [H1|H1].
      { by rewrite (ranked_one _ _ _ _ _ H H1 Hi Ha Hm), (ranked_one _ _ _ _ _ H H1 Hj Ha Hn). }
      destruct (ranked_many _ _ _ _ _ H H1 Hi Ha Hm) as (q1 & -> & E1 & Hd & _).
      destruct (ranked_many _ _ _ _ _ H H1 Hj Ha Hn) as (q2 & -> & E2 & _). f_equal. by eapply scaled_eq. }
  destruct (decide (a = NaN)) as [->|Ha].
  { rewrite (ranked_nan _ _ _ _ H Hi Hm). done. }
  destruct (decide (b = NaN)) as [->|Hb].
  { rewrite (ranked_nan _ _ _ _ H Hj Hn). destruct m, a; done. }
  destruct (decide (length (present ns) = 1)) as [H1|H1].
  { rewrite (ranked_one _ _ _ _ _ H H1 Hi Ha Hm), (ranked_one _ _ _ _ _ H H1 Hj Hb Hn).
    rewrite (present_single _ _ _ _ _ H1 Hi Ha Hj Hb). split; intros Hlt; by apply num_lt_irrefl in Hlt. }
  destruct (ranked_many _ _ _ _ _ H H1 Hi Ha Hm) as (q1 & -> & E1 & Hd & Hea & _).
  destruct (ranked_many _ _ _ _ _ H H1 Hj Hb Hn) as (q2 & -> & E2 & _ & Heb & _).
  cbn [num_lt]. rewrite (scaled_lt q1 q2 _ _ _ Hd E1 E2). split.
  - intros Hlt. pose proof (count_lt_step a b ns Hlt). lia.
  - intros Hlt. destruct (num_trichotomy a b Ha Hb) as [?|[->|Hgt]]; [done|lia|].
    pose proof (count_lt_step b a ns Hgt). lia.
Qed.
Lemma ranked_within ns ms : ranked ns ms -> within (num_of_Z (-1)) (num_of_Z 1) ns ms.
Proof.
  intros H i n m Hi Hm. destruct (decide (n = NaN)) as [->|Hn].
  { by rewrite (ranked_nan _ _ _ _ H Hi Hm). }
  destruct (decide (length (present ns) = 1)) as [H1|H1].
  { rewrite (ranked_one _ _ _ _ _ H H1 Hi Hn Hm). split; [done|]. intros _. rewrite !num_of_Z_le. lia. }
  destruct (ranked_many _ _ _ _ _ H H1 Hi Hn Hm) as (q & -> & E & Hd & He & Hc).
  split; [done|]. intros _. pose proof (count_le_present n ns Hn) as Hle.
  assert (Hlow : ((Qc_of_Z (-1) + 1) * Qc_of_Z (Z.of_nat (length (present ns)) - 1))%Qc = Qc_of_Z 0).
  { replace (Qc_of_Z (-1)) with (-(1))%Qc by (by apply Qc_is_canon). rewrite Qc_of_Z_0. ring. }
  assert (Hhi : ((Qc_of_Z 1 + 1) * Qc_of_Z (Z.of_nat (length (present ns)) - 1))%Qc = Qc_of_Z (2 * (Z.of_nat (length (present ns)) - 1))).
  { rewrite Z2Qc_inj_mul. by replace (Qc_of_Z 2) with (Qc_of_Z 1 + 1)%Qc by (by apply Qc_is_canon). }
  unfold num_le, num_same, num_of_Z. cbn [num_lt].
  split.
  - destruct (Qc_dec (Qc_of_Z (-1)) q) as [[?|Hl]|<-]; [by left| |by right].
    apply (scaled_lt _ _ _ _ _ Hd E Hlow) in Hl. lia.
  - destruct (Qc_dec q (Qc_of_Z 1)) as [[?|Hl]| -> ]; [by left| |by right].
    apply (scaled_lt _ _ _ _ _ Hd Hhi E) in Hl. lia.
Qed.

(** ** The other normalisations *)
Lemma rank_scale_zero len : rank_scale len (num_of_Z 0) = num_sub (num_div (num_of_Z (Z.of_nat len + 1)) (num_of_Z 2)) (num_of_Z 1).
Proof.
  unfold rank_scale, num_sub, num_of_Z. cbn [num_div num_add num_neg]. rewrite !decide_False by done.
  cbn [num_mul num_add num_neg]. f_equal. replace (Z.of_nat len - 1)%Z with (Z.of_nat len + -1)%Z by lia. rewrite !Z2Qc_inj_add.
  replace (Qc_of_Z (-1)) with (-(1))%Qc by (by apply Qc_is_canon).
  replace (Qc_of_Z 1) with 1%Qc by (by apply Qc_is_canon).
  replace (Qc_of_Z 2) with (1 + 1)%Qc by (by apply Qc_is_canon). rewrite Qc_of_Z_0. field. done.
Qed.
Lemma ranking_N ndtri ns : ranked_N ns (ranking_lane ndtri NormN ns).
Proof.
  exists (ranking_lane ndtri NormOne ns). pose proof (ranking_one ndtri ns) as Hr. split; [done|].
  apply list_eq_same_length with (length ns); [by rewrite fmap_length, ranking_lane_length|apply ranking_lane_length|].
  intros k m1 m2 Hk H1 H2. rewrite list_lookup_fmap, fmap_Some in H2. destruct H2 as (m & Hm & ->).
  apply lookup_lt_is_Some in Hk as [n Hn].
  unfold ranking_lane in H1. rewrite present_filter in H1. rewrite lookup_zip_with, !list_lookup_fmap in H1.
  rewrite (nanrankdata_lookup _ _ _ Hn), Hn in H1. cbn [fmap option_fmap option_map mbind option_bind] in H1.
  injection H1 as <-. destruct (decide (n = NaN)) as [->|Hnn].
  { rewrite (ranked_nan _ _ _ _ Hr Hn Hm). simpl. by rewrite andb_false_r. }
  replace (negb (is_nan n)) with true by (by destruct n). rewrite andb_true_r.
  destruct (decide (length (present ns) = 1)) as [Hc|Hc].
  { rewrite bool_decide_eq_true_2 by lia. rewrite (ranked_one _ _ _ _ _ Hr Hc Hn Hnn Hm). by rewrite rank_scale_zero. }
  rewrite bool_decide_eq_false_2 by lia.
  destruct (ranked_many _ _ _ _ _ Hr Hc Hn Hnn Hm) as (q & -> & E & Hd & He & Hp).
  rewrite nanrank_fin by done. unfold rank_scale, num_sub, num_of_Z. cbn [num_neg num_add num_div].
  assert (H0 : Qc_of_Z (Z.of_nat (length (present ns)) - 1) <> 0%Qc) by (apply Qc_of_Z_neq0; lia).
  rewrite !decide_False by done. cbn [num_mul num_add]. f_equal. revert E H0.
  replace (2 * Z.of_nat (count_lt n ns) + Z.of_nat (count_eq n ns) - 1)%Z
    with (2 * Z.of_nat (count_lt n ns) + (Z.of_nat (count_eq n ns) + 1) + -2)%Z by lia.
  rewrite !Z2Qc_inj_add, Z2Qc_inj_mul.
  generalize (Qc_of_Z (Z.of_nat (length (present ns)) - 1)) (Qc_of_Z (Z.of_nat (length ns) - 1)). intros d e E H0.
  replace (Qc_of_Z 1) with 1%Qc in * by (by apply Qc_is_canon).
  replace (Qc_of_Z (-2)) with (- (1 + 1))%Qc in E by (by apply Qc_is_canon).
  replace (Qc_of_Z 2) with (1 + 1)%Qc in * by (by apply Qc_is_canon).
  assert (E' : (q + 1)%Qc = ((q + 1) * d * / d)%Qc) by (field; done). rewrite E', E. field. split; done.
Qed.

Lemma ranking_gaussian ndtri ns : ranked_gaussian ndtri ns (ranking_lane ndtri NormGaussian ns).
Proof.
  exists (ranking_lane ndtri NormN ns). split; [apply ranking_N|]. split; [apply ranking_lane_length|].
  intros k n r Hn Hr. unfold ranking_lane in *. rewrite present_filter in *. rewrite lookup_zip_with, !list_lookup_fmap in *.
  rewrite (nanrankdata_lookup _ _ _ Hn), Hn in *. cbn [fmap option_fmap option_map mbind option_bind] in *.
  injection Hr as <-. f_equal. destruct (decide (length (present ns) = 1 /\ n <> NaN)) as [[Hc Hnn]|Hc].
  - rewrite bool_decide_eq_true_2 by lia. by destruct n.
  - assert (bool_decide (Z.of_nat (length (present ns)) = 1%Z) && negb (is_nan n) = false) as ->; [|done].
    apply andb_false_iff. destruct (decide (n = NaN)) as [->|]; [by right|]. left.
    apply bool_decide_eq_false_2. intros Hz. apply Hc. split; [lia|done].
Qed.

Lemma rank_scale_fin len q : rank_scale len (Fin q) = Fin ((q + 1) * (Qc_of_Z (Z.of_nat len - 1) / Qc_of_Z 2))%Qc.
Proof.
  unfold rank_scale, num_of_Z. cbn [num_div num_add]. rewrite decide_False by done. cbn [num_mul].
  by replace (Qc_of_Z 1) with 1%Qc by (by apply Qc_is_canon).
Qed.
Lemma half_pos len : 1 < len -> (0 < Qc_of_Z (Z.of_nat len - 1) / Qc_of_Z 2)%Qc.
Proof.
  intros H. unfold Qcdiv. rewrite <-(Qcmult_0_l (/ Qc_of_Z 2)). apply Qcmult_lt_compat_r; [done|]. apply Qc_of_Z_pos. lia.
Qed.
Lemma ranked_finite ns ms k m : ranked ns ms -> ms !! k = Some m -> m = NaN \/ exists q, m = Fin q.
Proof.
  intros H Hm. assert (is_Some (ns !! k)) as [n Hn].
  { apply lookup_lt_is_Some. rewrite <-(proj1 H). by eapply lookup_lt_Some. }
  destruct (proj2 H k n Hn) as (m' & Hm' & E). assert (m' = m) as -> by congruence.
  destruct (decide (n = NaN)); [by left|]. right. destruct (decide (length (present ns) = 1)); [eexists; exact E|].
  destruct E as (q & -> & _). eauto.
Qed.
Lemma ranked_N_order ns ms : ranked_N ns ms -> same_order ns ms.
Proof.
  intros (rs & Hr & ->) i j a b m n Hi Hj Hm Hn. rewrite list_lookup_fmap, fmap_Some in Hm, Hn.
  destruct Hm as (r1 & Hr1 & ->), Hn as (r2 & Hr2 & ->).
  destruct (ranked_order ns rs Hr i j a b r1 r2 Hi Hj Hr1 Hr2) as [H1 H2]. split; [|by intros ->%H2].
  rewrite H1. destruct (ranked_finite _ _ _ _ Hr Hr1) as [->|[q1 ->]], (ranked_finite _ _ _ _ Hr Hr2) as [->|[q2 ->]]; try done.
  rewrite !rank_scale_fin. cbn [num_lt]. destruct (decide (length ns = 1)) as [H|H].
  - assert (i = 0) as -> by (apply lookup_lt_Some in Hi; lia). assert (j = 0) as -> by (apply lookup_lt_Some in Hj; lia).
    assert (q1 = q2) as -> by congruence. split; intros Hlt; by apply Qclt_not_eq in Hlt.
  - assert (Hl : 1 < length ns) by (apply lookup_lt_Some in Hi; lia).
    rewrite <-Qcmult_lt_iff_r by (by apply half_pos). rewrite !(Qcplus_comm _ 1). apply Qcplus_lt_mono_l.
Qed.
Lemma ranked_N_within ns ms : ranked_N ns ms -> within (num_of_Z 0) (num_of_Z (Z.of_nat (length ns) - 1)) ns ms.
Proof.
  intros (rs & Hr & ->) i n m Hi Hm. rewrite list_lookup_fmap, fmap_Some in Hm. destruct Hm as (r & Hri & ->).
  destruct (ranked_within ns rs Hr i n r Hi Hri) as [H1 H2].
  destruct (ranked_finite _ _ _ _ Hr Hri) as [->|[q ->]].
  { assert (n = NaN) as -> by (by apply H1). done. }
  assert (Hn : n <> NaN) by (intros ->; naive_solver). split; [by rewrite rank_scale_fin|]. intros _.
  destruct (H2 Hn) as [Hlo Hhi]. rewrite rank_scale_fin. clear H1 H2.
  assert (Hlo' : (0 <= q + 1)%Qc).
  { apply Qcle_trans with (Qc_of_Z (-1) + 1)%Qc; [by apply Qcle_refl|]. apply Qcplus_le_compat; [|apply Qcle_refl].
    destruct Hlo as [Hlo|[Hlo _]]; [by apply Qclt_le_weak|]. injection Hlo as <-. apply Qcle_refl. }
  assert (Hhi' : (q + 1 <= Qc_of_Z 2)%Qc).
  { apply Qcle_trans with (Qc_of_Z 1 + 1)%Qc; [|by rewrite Qcle_alt]. apply Qcplus_le_compat; [|apply Qcle_refl].
    destruct Hhi as [Hhi|[Hhi _]]; [by apply Qclt_le_weak|]. injection Hhi as ->. apply Qcle_refl. }
  assert (H0 : (0 <= Qc_of_Z (Z.of_nat (length ns) - 1))%Qc).
  { rewrite <-Qc_of_Z_0. apply (proj1 (Z2Qc_inj_le 0 (Z.of_nat (length ns) - 1))). apply lookup_lt_Some in Hi. lia. }
  set (h := Qc_of_Z (Z.of_nat (length ns) - 1)) in *.
  assert (Hh : (0 <= h / Qc_of_Z 2)%Qc).
  { unfold Qcdiv. rewrite <-(Qcmult_0_l (/ Qc_of_Z 2)). by apply Qcmult_le_compat_r. }
  assert (Hle : forall p r : Qc, (p <= r)%Qc -> num_le (Fin p) (Fin r)).
  { intros p r Hpr. unfold num_le, num_same. cbn [num_lt]. destruct (Qc_dec p r) as [[?|Hgt]| ->]; [by left| |by right].
    exfalso. by apply (Qclt_not_le _ _ Hgt). }
  split; apply Hle.
  - rewrite Qc_of_Z_0. rewrite <-(Qcmult_0_l (h / Qc_of_Z 2)). by apply Qcmult_le_compat_r.
  - apply Qcle_trans with (Qc_of_Z 2 * (h / Qc_of_Z 2))%Qc; [by apply Qcmult_le_compat_r|].
    assert ((Qc_of_Z 2 * (h / Qc_of_Z 2))%Qc = h) as -> by (field; done). apply Qcle_refl.
Qed.

(** ** Negation *)
Lemma num_neg_invol n : num_neg (num_neg n) = n.
Proof. destruct n; simpl; try done. f_equal. ring. Qed.
Lemma num_neg_inj a b : num_neg a = num_neg b <-> a = b.
Proof. split; [|by intros ->]. intros H. by rewrite <-(num_neg_invol a), H, num_neg_invol. Qed.
Lemma num_lt_neg a b : num_lt (num_neg a) (num_neg b) <-> num_lt b a.
Proof.
  destruct a as [p| | |], b as [q| | |]; simpl; try done.
  rewrite (Qclt_minus_iff (- p)), (Qclt_minus_iff q). by rewrite Qcopp_involutive, Qcplus_comm.
Qed.
Lemma filter_fmap_length {A B} (f : A -> B) (P : B -> Prop) `{!forall x, Decision (P x)} (l : list A) :
  length (filter P (f <$> l)) = length (filter (fun x => P (f x)) l).
Proof. induction l as [|x l IH]; [done|]. rewrite fmap_cons, !filter_cons. destruct (decide (P (f x))); simpl; lia. Qed.
Lemma present_neg ns : length (present (num_neg <$> ns)) = length (present ns).
Proof.
  unfold present. rewrite filter_fmap_length. apply filter_length_ext. intros x _. by destruct x.
Qed.
Lemma count_neg n ns : n <> NaN ->
  count_lt (num_neg n) (num_neg <$> ns) + count_eq n ns + count_lt n ns = length (present ns) /\
  count_eq (num_neg n) (num_neg <$> ns) = count_eq n ns.
Proof.
  intros Hn. unfold count_lt, count_eq. rewrite !filter_fmap_length.
  rewrite (filter_length_ext (fun x => num_lt (num_neg x) (num_neg n)) (fun x => num_lt n x)) by (intros; apply num_lt_neg).
  rewrite (filter_length_ext (fun x => num_neg x = num_neg n) (fun x => x = n)) by (intros; apply num_neg_inj).
  split; [|done]. rewrite <-!Nat.add_assoc. rewrite <-filter_length_split.
  2:{ intros m -> H. by apply num_lt_irrefl in H. }
  rewrite <-filter_length_split.
  - apply filter_length_ext. intros m _. split.
    + intros [H|[->|H]]; [apply (num_lt_nan _ _ H)|done|apply (num_lt_nan _ _ H)].
    + intros Hm. destruct (num_trichotomy n m Hn Hm) as [?|[->|?]]; auto.
  - intros m H1 [->|H2]; [by apply num_lt_irrefl in H1|]. eapply num_lt_irrefl, num_lt_trans; eauto.
Qed.
Lemma count_perm n ns ns' : ns ≡ₚ ns' ->
  length (present ns) = length (present ns') /\ count_lt n ns = count_lt n ns' /\ count_eq n ns = count_eq n ns'.
Proof. intros H. unfold present, count_lt, count_eq. by rewrite H. Qed.
Lemma ranked_neg ns ms ns' ms' k k' n m m' :
  ranked ns ms -> ranked ns' ms' -> ns' ≡ₚ num_neg <$> ns -> ns !! k = Some n -> ns' !! k' = Some (num_neg n) ->
  ms !! k = Some m -> ms' !! k' = Some m' -> m' = num_neg m.
Proof.
  intros H H' Hp Hn Hn' Hm Hm'. destruct (decide (n = NaN)) as [->|Hnn].
  { by rewrite (ranked_nan _ _ _ _ H Hn Hm), (ranked_nan _ _ _ _ H' Hn' Hm'). }
  assert (Hnn' : num_neg n <> NaN) by (by destruct n).
  destruct (count_perm (num_neg n) _ _ Hp) as (Hc1 & Hc2 & Hc3). rewrite present_neg in Hc1.
  destruct (count_neg n ns Hnn) as [Hc4 Hc5].
  destruct (decide (length (present ns) = 1)) as [H1|H1].
  { rewrite (ranked_one _ _ _ _ _ H H1 Hn Hnn Hm). rewrite (ranked_one _ _ _ _ _ H' ltac:(lia) Hn' Hnn' Hm').
    unfold num_of_Z. simpl. f_equal. by apply Qc_is_canon. }
  destruct (ranked_many _ _ _ _ _ H H1 Hn Hnn Hm) as (q & -> & E & Hd & He & Hc).
  destruct (ranked_many _ _ _ _ _ H' ltac:(lia) Hn' Hnn' Hm') as (q' & -> & E' & _).
  simpl. f_equal. rewrite Hc1 in E'. eapply scaled_eq; [exact Hd|exact E'|].
  rewrite Hc2, Hc3, Hc5.
  replace (2 * Z.of_nat (count_lt (num_neg n) (num_neg <$> ns)) + Z.of_nat (count_eq n ns) - 1)%Z
    with (2 * (Z.of_nat (length (present ns)) - 1) + - (2 * Z.of_nat (count_lt n ns) + Z.of_nat (count_eq n ns) - 1))%Z by lia.
  rewrite Z2Qc_inj_add, Z2Qc_inj_opp, Z2Qc_inj_mul, <-E.
  replace (Qc_of_Z 2) with (1 + 1)%Qc by (by apply Qc_is_canon). ring.
Qed.
