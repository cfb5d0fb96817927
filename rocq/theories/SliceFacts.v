(** Proofs about positions and slices. *)
From Verif Require Import BaseFacts.
From Verif Require Export SpecSlice.

Lemma py_index_means n z i : py_index n z = Some i <-> means n z i.
Proof.
  unfold py_index, means. repeat case_decide; split; try (intros [= <-]); try intros [? [?|?]]; try f_equal; try lia; try done.
Qed.
Lemma py_get_means {A} (l : list A) z x : py_get l z = Some x <-> exists i, means (length l) z i /\ l !! i = Some x.
Proof. unfold py_get. rewrite bind_Some. by setoid_rewrite py_index_means. Qed.

Lemma sorted_fmap_seq (f : nat -> nat) (R : relation nat) m a :
  (forall j k, a <= j -> j < k -> k < a + m -> R (f j) (f k)) -> StronglySorted R (f <$> seq a m).
Proof.
  revert a. induction m as [|m IH]; intros a H; simpl; constructor.
  - apply IH. intros. apply H; lia.
  - apply Forall_forall. intros x (k & -> & Hk)%elem_of_list_fmap. apply elem_of_seq in Hk. apply H; lia.
Qed.
Lemma positions_up a b k (Hk : (0 < k)%Z) (Ha : (0 <= a)%Z) :
  let count := (if a <? b then (b - a - 1) / k + 1 else 0)%Z in
  let ps := (fun j => Z.to_nat (a + Z.of_nat j * k)) <$> seq 0 (Z.to_nat count) in
  StronglySorted lt ps /\ forall i, i ∈ ps <-> (a <= Z.of_nat i < b)%Z /\ (k | Z.of_nat i - a)%Z.
Proof.
  intros count ps. split.
  - apply sorted_fmap_seq. intros. nia.
  - intros i. unfold ps. rewrite elem_of_list_fmap. setoid_rewrite elem_of_seq. unfold count. split.
    + intros (j & -> & Hj). destruct (Z.ltb_spec a b); [|lia].
      assert (Z.of_nat j <= (b - a - 1) / k)%Z by lia. pose proof (Z.mul_div_le (b - a - 1) k Hk).
      assert (Z.of_nat j * k <= b - a - 1)%Z by nia. rewrite Z2Nat.id by nia. split; [nia|]. exists (Z.of_nat j). lia.
    + intros [Hr [q Hq]]. assert (0 <= q)%Z by nia. exists (Z.to_nat q). split.
      * rewrite Z2Nat.id by done. apply Nat2Z.inj. rewrite Z2Nat.id; lia.
      * destruct (Z.ltb_spec a b); [|lia]. assert (q <= (b - a - 1) / k)%Z by (apply Z.div_le_lower_bound; nia). lia.
Qed.
Lemma positions_down a b k (Hk : (0 < k)%Z) (Hb : (-1 <= b)%Z) :
  let count := (if b <? a then (a - b - 1) / k + 1 else 0)%Z in
  let ps := (fun j => Z.to_nat (a + Z.of_nat j * (- k))) <$> seq 0 (Z.to_nat count) in
  StronglySorted gt ps /\ forall i, i ∈ ps <-> (b < Z.of_nat i <= a)%Z /\ (k | a - Z.of_nat i)%Z.
Proof.
  intros count ps.
  assert (Hj : forall j, j < Z.to_nat count -> (b < a + Z.of_nat j * - k)%Z).
  { intros j Hj. unfold count in Hj. destruct (Z.ltb_spec b a); [|lia].
    assert (Z.of_nat j <= (a - b - 1) / k)%Z by lia. pose proof (Z.mul_div_le (a - b - 1) k Hk).
    assert (Z.of_nat j * k <= a - b - 1)%Z by nia. lia. }
  split.
  - apply sorted_fmap_seq. intros j j' _ Hjj Hj'. pose proof (Hj j' ltac:(lia)). nia.
  - intros i. unfold ps. rewrite elem_of_list_fmap. setoid_rewrite elem_of_seq. split.
    + intros (j & -> & [_ Hj']). pose proof (Hj j ltac:(lia)). rewrite Z2Nat.id by nia. split; [nia|]. exists (Z.of_nat j). lia.
    + intros [Hr [q Hq]]. assert (0 <= q)%Z by nia. exists (Z.to_nat q). split.
      * rewrite Z2Nat.id by done. apply Nat2Z.inj. rewrite Z2Nat.id; lia.
      * unfold count. destruct (Z.ltb_spec b a); [|lia]. assert (q <= (a - b - 1) / k)%Z by (apply Z.div_le_lower_bound; nia). lia.
Qed.
Lemma clamp_eq lo up n z : (lo <= up)%Z -> slice_clamp lo up (Z.of_nat n) z = Z.max lo (Z.min up (from_end n z)).
Proof.
  intros H. unfold slice_clamp, from_end. destruct (Z.ltb_spec z 0); case_decide; try lia; cbv zeta.
  - destruct (Z.ltb_spec (z + Z.of_nat n) lo); [lia|]. destruct (Z.ltb_spec up (z + Z.of_nat n)); lia.
  - destruct (Z.ltb_spec z lo); [lia|]. destruct (Z.ltb_spec up z); lia.
Qed.
Lemma slice_positions_takes s n ps : slice_positions s n = Ok ps -> slice_takes s n ps.
Proof.
  destruct s as [st sp k]. unfold slice_positions, slice_takes. cbn [s_start s_stop s_step].
  set (step := default 1%Z k). cbv zeta. case_decide as H0; [done|]. 
  assert (Hk : (0 < step)%Z /\ StronglySorted lt ps /\ (forall i, i ∈ ps <-> upward n st sp step i) \/
               (step < 0)%Z /\ StronglySorted gt ps /\ (forall i, i ∈ ps <-> downward n st sp (- step) i) ->
    match k with
    | Some k => (0 < k)%Z /\ StronglySorted lt ps /\ (forall i, i ∈ ps <-> upward n st sp k i) \/
               (k < 0)%Z /\ StronglySorted gt ps /\ (forall i, i ∈ ps <-> downward n st sp (- k) i)
    | None => StronglySorted lt ps /\ forall i, i ∈ ps <-> upward n st sp 1 i
    end).
  { destruct k as [k|]; [done|]. simpl in step. subst step. intros [(_ & ?)|(? & _)]; [done|lia]. }
  intros Hps. apply Hk. clear Hk. destruct (Z.ltb_spec step 0) as [Hs|Hs]; [right|left]; (split; [lia|]); injection Hps as <-.
  - set (a := match st with Some z => slice_clamp (-1) (Z.of_nat n - 1) (Z.of_nat n) z | None => (Z.of_nat n - 1)%Z end).
    set (b := match sp with Some z => slice_clamp (-1) (Z.of_nat n - 1) (Z.of_nat n) z | None => (-1)%Z end).
    assert (-1 <= b)%Z as Hb. { unfold b. destruct sp as [z|]; [|lia]. rewrite clamp_eq; lia. }
    destruct (positions_down a b (- step) ltac:(lia) Hb) as [P1 P2].
    rewrite Z.opp_involutive in P1, P2. split; [exact P1|]. intros i. rewrite P2. unfold downward. cbv zeta.
    assert (Ha : (a < Z.of_nat n)%Z). { unfold a. destruct st as [z|]; [|lia]. rewrite clamp_eq; lia. }
    assert (Hbi : i < n -> (b < Z.of_nat i)%Z <-> match sp with None => True | Some z => (from_end n z < Z.of_nat i)%Z end).
    { intros Hi. unfold b. destruct sp as [z|]; [|lia]. rewrite clamp_eq; lia. }
    set (f := match st with None => (Z.of_nat n - 1)%Z | Some z => Z.min (Z.of_nat n - 1) (from_end n z) end).
    assert (a = f \/ (a < 0 /\ f < 0)%Z) as [->|[Ea Hf]].
    { unfold a, f. destruct st as [z|]; [|by left]. rewrite clamp_eq; lia. }
    + split.
      * intros [[? ?] ?]. assert (i < n) by lia. tauto.
      * intros (? & ? & ? & ?). tauto.
    + split; lia.
  - set (a := match st with Some z => slice_clamp 0 (Z.of_nat n) (Z.of_nat n) z | None => 0%Z end).
    set (b := match sp with Some z => slice_clamp 0 (Z.of_nat n) (Z.of_nat n) z | None => Z.of_nat n end).
    assert (0 <= a)%Z as Ha. { unfold a. destruct st as [z|]; [|lia]. rewrite clamp_eq; lia. }
    destruct (positions_up a b step ltac:(lia) Ha) as [P1 P2]. split; [exact P1|]. intros i. rewrite P2. unfold upward. cbv zeta.
    assert (Hbi : (Z.of_nat i < b)%Z <-> i < n /\ match sp with None => True | Some z => (Z.of_nat i < from_end n z)%Z end).
    { unfold b. destruct sp as [z|]; [|lia]. rewrite clamp_eq; lia. }
    set (f := match st with None => 0%Z | Some z => Z.max 0 (from_end n z) end).
    assert (a = f \/ a = Z.of_nat n /\ (Z.of_nat n < f)%Z) as [->|[Ea Hf]].
    { unfold a, f. destruct st as [z|]; [|by left]. rewrite clamp_eq; lia. }
    + tauto.
    + rewrite Ea. split; [intros [? _]|]; lia.
Qed.
(** Two sorted lists with the same elements are equal. *)
Lemma sorted_same (R : relation nat) l l' : (forall x, ~ R x x) -> (forall x y z, R x y -> R y z -> R x z) ->
  StronglySorted R l -> StronglySorted R l' -> (forall i, i ∈ l <-> i ∈ l') -> l = l'.
Proof.
  intros Hi Ht. revert l'. induction l as [|x l IH]; intros [|y l'] S1 S2 H.
  - done.
  - exfalso. apply (not_elem_of_nil y), H. by left.
  - exfalso. apply (not_elem_of_nil x), H. by left.
  - apply StronglySorted_inv in S1 as [S1 F1], S2 as [S2 F2]. rewrite Forall_forall in F1, F2.
    assert (x = y) as ->.
    { assert (x ∈ y :: l') as [->|Hx]%elem_of_cons by (apply H; left); [done|]. assert (y ∈ x :: l) as [->|Hy]%elem_of_cons by (apply H; left); [done|].
      destruct (Hi x). eapply Ht; [apply F1, Hy|apply F2, Hx]. }
    f_equal. apply IH; [done..|]. intros i. pose proof (H i) as Hc. rewrite !elem_of_cons in Hc.
    split; intros Hin.
    + destruct (proj1 Hc (or_intror Hin)) as [->|?]; [|done]. destruct (Hi y). by apply F1.
    + destruct (proj2 Hc (or_intror Hin)) as [->|?]; [|done]. destruct (Hi y). by apply F2.
Qed.
Lemma slice_takes_unique s n ps ps' : slice_takes s n ps -> slice_takes s n ps' -> ps = ps'.
Proof.
  unfold slice_takes. destruct (s_step s) as [k|].
  - intros [(? & S & H)|(? & S & H)] [(? & S' & H')|(? & S' & H')]; try lia.
    + apply (sorted_same lt); [lia|lia|done|done|]. intros i. by rewrite H, H'.
    + apply (sorted_same gt); [lia|lia|done|done|]. intros i. by rewrite H, H'.
  - intros (S & H) (S' & H'). apply (sorted_same lt); [lia|lia|done|done|]. intros i. by rewrite H, H'.
Qed.
Lemma slice_positions_iff s n ps : slice_positions s n = Ok ps <-> slice_takes s n ps.
Proof.
  split; [apply slice_positions_takes|]. intros H. destruct (slice_positions s n) as [ps'|e] eqn:E.
  - apply slice_positions_takes in E. f_equal. by eapply slice_takes_unique.
  - exfalso. unfold slice_positions in E. case_decide as D; [|done]. unfold slice_takes in H. destruct (s_step s) as [k|]; simpl in D; [|done]. lia.
Qed.
Lemma py_slice_takes {A} s (l l' : list A) :
  py_slice s l = Ok l' <-> exists ps, slice_takes s (length l) ps /\ Forall2 (fun i x => l !! i = Some x) ps l'.
Proof.
  rewrite py_slice_Ok. setoid_rewrite <-slice_positions_iff. split; intros (ps & H & H'); exists ps; (split; [done|]).
  - by apply mapM_Some in H'.
  - by apply mapM_Some.
Qed.
Lemma py_slice_error {A} s (l : list A) : py_slice s l = Err ValueError <-> s_step s = Some 0%Z.
Proof.
  unfold py_slice. destruct (slice_positions s (length l)) as [ps|e] eqn:E; simpl.
  - split.
    + destruct (mapM _ ps); done.
    + intros H0. unfold slice_positions in E. rewrite H0 in E. done.
  - unfold slice_positions in E. case_decide as D; [|done]. injection E as <-. split; [|done]. intros _. destruct (s_step s); simpl in D; [by subst|done].
Qed.
