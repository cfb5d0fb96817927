(** Lemmas about the Python basics. *)
From Verif Require Export Base.

(** * Results *)
Lemma bind_ok {A B} (r : res A) (f : A -> res B) b :
  r ≫= f = Ok b <-> exists a, r = Ok a /\ f a = Ok b.
Proof. destruct r; simpl; naive_solver. Qed.
Lemma bind_err {A B} (r : res A) (f : A -> res B) e :
  r ≫= f = Err e <-> r = Err e \/ exists a, r = Ok a /\ f a = Err e.
Proof. destruct r; simpl; naive_solver. Qed.
Lemma fmap_ok {A B} (r : res A) (f : A -> B) b :
  f <$> r = Ok b <-> exists a, r = Ok a /\ b = f a.
Proof. destruct r; simpl; naive_solver. Qed.
Lemma of_opt_ok {A} e (o : option A) a : of_opt e o = Ok a <-> o = Some a.
Proof. destruct o; simpl; naive_solver. Qed.
Lemma of_opt_err {A} e e' (o : option A) : of_opt e o = Err e' <-> o = None /\ e' = e.
Proof. destruct o; simpl; naive_solver. Qed.
Lemma guard_ok b e u : guard_res b e = Ok u <-> b = true.
Proof. destruct b, u; simpl; naive_solver. Qed.
Lemma guard_err b e e' : guard_res b e = Err e' <-> b = false /\ e' = e.
Proof. destruct b; simpl; naive_solver. Qed.

Lemma mapR_ok {X Y} (f : X -> res Y) l ys :
  mapR f l = Ok ys <-> Forall2 (fun x y => f x = Ok y) l ys.
Proof.
  revert ys; induction l as [|x l IH]; intros ys; simpl.
  - split; [intros [= <-]; constructor|inversion 1; done].
  - split.
    + destruct (f x) eqn:E; [|done]. destruct (mapR f l) eqn:E2; [|done].
      intros [= <-]. constructor; [done|]. by apply IH.
    + inversion 1 as [|? ? ? ? H1 H2]; subst. rewrite H1.
      apply IH in H2. by rewrite H2.
Qed.
Lemma mapR_length {X Y} (f : X -> res Y) l ys : mapR f l = Ok ys -> length ys = length l.
Proof. rewrite mapR_ok. intros ?%Forall2_length. done. Qed.

Lemma mapR_ext {X Y} (f g : X -> res Y) l : (forall x, x ∈ l -> f x = g x) -> mapR f l = mapR g l.
Proof.
  induction l as [|x l IH]; intros H; [done|]. simpl. rewrite (H x) by left.
  rewrite IH; [done|]. intros. apply H. by right.
Qed.
Lemma mapR_pure {X Y} (f : X -> Y) l : mapR (fun x => Ok (f x)) l = Ok (f <$> l).
Proof. induction l as [|x l IH]; [done|]. simpl. by rewrite IH. Qed.

Lemma mapR_total {X Y} (f : X -> res Y) l : (forall x, x ∈ l -> exists y, f x = Ok y) -> exists ys, mapR f l = Ok ys.
Proof.
  induction l as [|x l IH]; intros H; [by eexists|]. simpl. destruct (H x) as [y ->]; [by left|].
  destruct IH as [ys ->]; [|by eexists]. intros. apply H. by right.
Qed.

(** Invariant rule for loops. *)
Lemma foldM_inv {S X} (P : S -> Prop) (f : S -> X -> res S) s l s' :
  P s -> (forall s x s', x ∈ l -> P s -> f s x = Ok s' -> P s') -> foldM f s l = Ok s' -> P s'.
Proof.
  revert s; induction l as [|x l IH]; intros s Hs Hf; simpl; [by intros [= <-]|].
  destruct (f s x) eqn:E; [|done]. apply IH.
  - eapply Hf; [left|done|done].
  - intros ???? . apply Hf. by right.
Qed.
Lemma foldM_app {S X} (f : S -> X -> res S) s l1 l2 :
  foldM f s (l1 ++ l2) = foldM f s l1 ≫= fun s' => foldM f s' l2.
Proof. revert s; induction l1 as [|x l1 IH]; intros s; simpl; [done|]. destruct (f s x); [apply IH|done]. Qed.

(** * Lists *)
Lemma mapM_Some_lookup {A B} (f : A -> option B) l k :
  mapM f l = Some k <-> length k = length l /\ forall i x, l !! i = Some x -> f x = k !! i.
Proof.
  rewrite mapM_Some. split.
  - intros H. split; [by apply Forall2_length in H|]. intros i x Hi.
    destruct (Forall2_lookup_l _ _ _ _ _ H Hi) as (y & Hy & ?). by rewrite Hy.
  - intros [Hlen H]. apply Forall2_same_length_lookup. split; [done|].
    intros i x y Hx Hy. by rewrite (H _ _ Hx).
Qed.
Lemma mapM_lookup {A B} (f : A -> option B) l k i x :
  mapM f l = Some k -> l !! i = Some x -> k !! i = f x.
Proof. intros [_ H]%mapM_Some_lookup ?. symmetry; auto. Qed.

Lemma index_of_Some `{EqDecision A} (x : A) l i :
  index_of x l = Some i -> l !! i = Some x /\ forall j, j < i -> l !! j <> Some x.
Proof.
  revert i; induction l as [|y l IH]; intros i; simpl; [done|].
  destruct (decide (x = y)) as [->|Hne].
  - intros [= <-]. split; [done|]. intros; lia.
  - destruct (index_of x l) as [k|] eqn:E; [|done]. intros [= <-].
    destruct (IH _ eq_refl) as [H1 H2]. split; [done|].
    intros [|j] Hj; simpl; [congruence|]. apply H2. lia.
Qed.
Lemma index_of_None `{EqDecision A} (x : A) l : index_of x l = None <-> x ∉ l.
Proof.
  induction l as [|y l IH]; simpl; [split; [intros _; apply not_elem_of_nil|done]|].
  rewrite not_elem_of_cons. destruct (decide (x = y)); [naive_solver|].
  rewrite fmap_None. naive_solver.
Qed.
Lemma index_of_lookup `{EqDecision A} (x : A) l i :
  NoDup l -> l !! i = Some x -> index_of x l = Some i.
Proof.
  intros Hnd Hi. destruct (index_of x l) as [j|] eqn:E.
  - apply index_of_Some in E as [Hj _]. f_equal. by eapply NoDup_lookup.
  - apply index_of_None in E. exfalso; apply E. by eapply elem_of_list_lookup_2.
Qed.
Lemma index_of_iff `{EqDecision A} (x : A) l i :
  NoDup l -> index_of x l = Some i <-> l !! i = Some x.
Proof. intros ?. split; [by intros [? _]%index_of_Some|by apply index_of_lookup]. Qed.
Lemma index_of_is_Some `{EqDecision A} (x : A) l : is_Some (index_of x l) <-> x ∈ l.
Proof.
  rewrite <-not_eq_None_Some, index_of_None. split; [|by auto].
  destruct (decide (x ∈ l)); naive_solver.
Qed.

(** * Duplicates *)
Lemma remove_dups_length_le `{EqDecision A} (l : list A) : length (remove_dups l) <= length l.
Proof. induction l as [|x l IH]; [done|]. simpl.
  case_decide; simpl; lia. Qed.
Lemma remove_dups_id `{EqDecision A} (l : list A) : NoDup l -> remove_dups l = l.
Proof.
  induction l as [|x l IH]; [done|]. rewrite NoDup_cons. intros [Hx Hl]. simpl.
  case_decide; [done|]. by rewrite IH.
Qed.
Lemma py_nodup_spec `{EqDecision A} (l : list A) : py_nodup l = true <-> NoDup l.
Proof.
  unfold py_nodup. rewrite bool_decide_eq_true. split.
  - induction l as [|x l IH]; [constructor|]. simpl. case_decide as Hx; simpl.
    + pose proof (remove_dups_length_le l). lia.
    + intros [= H]. constructor; [done|auto].
  - intros H. by rewrite remove_dups_id.
Qed.
Lemma py_nodup_false `{EqDecision A} (l : list A) : py_nodup l = false <-> ~ NoDup l.
Proof. rewrite <-py_nodup_spec. destruct (py_nodup l); naive_solver. Qed.

(** * Dictionaries *)
Section dict.
  Context `{EqDecision K} {V : Type}.
  Implicit Types (d : pydict K V).

  Lemma dict_get_set d k k' v :
    dict_get (dict_set k v d) k' = if decide (k' = k) then Some v else dict_get d k'.
  Proof.
    induction d as [|[k0 v0] d IH]; simpl.
    - repeat case_decide; naive_solver.
    - repeat (case_decide; simpl); naive_solver.
  Qed.

  (** Keys keep their place. *)
  Lemma dict_set_keys d k v :
    (dict_set k v d).*1 = if decide (k ∈ d.*1) then d.*1 else d.*1 ++ [k].
  Proof.
    induction d as [|[k0 v0] d IH].
    { case_decide as Hk; [|done]. by apply elem_of_nil in Hk. }
    destruct (decide (k ∈ ((k0,v0)::d).*1)) as [Hk|Hk];
      rewrite fmap_cons, elem_of_cons in Hk; cbn [dict_set];
      destruct (decide (k = k0)) as [->|Hk0]; rewrite ?fmap_cons, ?IH; simpl in *;
      repeat case_decide; naive_solver.
  Qed.
  Lemma dict_set_nodup d k v : NoDup d.*1 -> NoDup (dict_set k v d).*1.
  Proof.
    rewrite dict_set_keys. case_decide; [done|]. intros. apply NoDup_app.
    split_and!; [done| |apply NoDup_singleton]. intros x ? ->%elem_of_list_singleton. done.
  Qed.

  Lemma dict_fold_get (ps : list (K * V)) d k :
    dict_get (fold_left (fun d p => dict_set p.1 p.2 d) ps d) k =
    match last (filter (fun p => p.1 = k) ps) with
    | Some p => Some p.2
    | None => dict_get d k
    end.
  Proof.
    revert d; induction ps as [|[k0 v0] ps IH]; intros d; simpl; [done|].
    rewrite IH, filter_cons. simpl. rewrite dict_get_set.
    case_decide as H1; case_decide as H2; subst; try congruence.
    rewrite last_cons. by destruct (last _).
  Qed.

  Lemma dict_fold_keys (ps : list (K * V)) d k :
    k ∈ (fold_left (fun d p => dict_set p.1 p.2 d) ps d).*1 <-> k ∈ d.*1 \/ k ∈ ps.*1.
  Proof.
    revert d; induction ps as [|[k0 v0] ps IH]; intros d; csimpl.
    { rewrite elem_of_nil. naive_solver. }
    rewrite IH, dict_set_keys, elem_of_cons. case_decide; [naive_solver|].
    rewrite elem_of_app, elem_of_list_singleton. naive_solver.
  Qed.

  Lemma dict_get_elem d k v : dict_get d k = Some v -> (k, v) ∈ d.
  Proof.
    induction d as [|[k0 v0] d IH]; simpl; [done|]. case_decide; subst.
    - intros [= ->]. left.
    - intros. right. auto.
  Qed.
  Lemma dict_get_None d k : dict_get d k = None <-> k ∉ d.*1.
  Proof.
    induction d as [|[k0 v0] d IH]; csimpl; [split; [intros _; apply not_elem_of_nil|done]|].
    rewrite not_elem_of_cons. case_decide; naive_solver.
  Qed.
End dict.

(** [dict(zip(l, range(len(l))))] maps every element to its last position. *)
Lemma dict_zip_index `{EqDecision K} (l : list K) k i :
  dict_get (dict_zip l (seq 0 (length l))) k = Some i <->
  l !! i = Some k /\ forall j, l !! j = Some k -> j <= i.
Proof.
  unfold dict_zip.
  enough (G : forall l n d,
    dict_get (fold_left (fun d p => dict_set p.1 p.2 d) (zip l (seq n (length l))) d) k = Some i <->
    ((n <= i /\ l !! (i - n) = Some k /\ forall j, l !! j = Some k -> j <= i - n) \/
     (k ∉ l /\ dict_get d k = Some i))).
  { rewrite G. simpl. rewrite Nat.sub_0_r. naive_solver lia. }
  clear l. intros l; induction l as [|x l IH]; intros n d; simpl.
  - split; [intros; right; split; [apply not_elem_of_nil|done]|].
    intros [(? & ? & ?)|[_ ?]]; done.
  - rewrite IH, dict_get_set, not_elem_of_cons. simpl. split.
    + intros [(Hn & Hl & Hmax)|[Hni Hd]].
      * left. split; [lia|]. replace (i - n) with (S (i - S n)) by lia. simpl.
        split; [done|]. intros [|j] Hj; [lia|]. simpl in Hj. apply Hmax in Hj. lia.
      * case_decide as Hk.
        -- subst x. injection Hd as <-. left. split; [lia|]. rewrite Nat.sub_diag. simpl.
           split; [done|]. intros [|j] Hj; [lia|]. simpl in Hj.
           exfalso. apply Hni. by eapply elem_of_list_lookup_2.
        -- right. done.
    + intros [(Hn & Hl & Hmax)|[[Hni Hni'] Hd]].
      * destruct (i - n) as [|m] eqn:Em.
        -- simpl in Hl. injection Hl as ->. right. split.
           ++ intros [j Hj]%elem_of_list_lookup. specialize (Hmax (S j) Hj). lia.
           ++ rewrite decide_True by done. f_equal. lia.
        -- left. simpl in Hl. split; [lia|]. replace (i - S n) with m by lia.
           split; [done|]. intros j Hj. specialize (Hmax (S j) Hj). lia.
      * right. rewrite decide_False by done. done.
Qed.
Lemma dict_zip_None `{EqDecision K} (l : list K) k :
  dict_get (dict_zip l (seq 0 (length l))) k = None <-> k ∉ l.
Proof.
  rewrite dict_get_None. unfold dict_zip. rewrite dict_fold_keys. simpl.
  rewrite fst_zip by (by rewrite seq_length). rewrite elem_of_nil. naive_solver.
Qed.

(** * Indices and slices *)
Lemma py_index_Some n z i :
  py_index n z = Some i <->
  i < n /\ (z = Z.of_nat i \/ z = (Z.of_nat i - Z.of_nat n)%Z).
Proof.
  unfold py_index. repeat case_decide; split; intros H'.
  all: try (injection H' as <-); try lia.
  all: try (f_equal; lia). all: try done; exfalso; lia.
Qed.
Lemma py_index_lt n z i : py_index n z = Some i -> i < n.
Proof. rewrite py_index_Some. lia. Qed.
Lemma py_index_nat n i : i < n -> py_index n (Z.of_nat i) = Some i.
Proof. intros. apply py_index_Some. lia. Qed.
Lemma py_index_None n z :
  py_index n z = None <-> (z < - Z.of_nat n \/ Z.of_nat n <= z)%Z.
Proof. unfold py_index. repeat case_decide; split; intros; try done; lia. Qed.

Lemma slice_clamp_range lo hi len z : (lo <= hi)%Z -> (lo <= slice_clamp lo hi len z <= hi)%Z.
Proof.
  unfold slice_clamp. intros.
  destruct (z <? 0)%Z; destruct (_ <? lo)%Z eqn:?; try (destruct (hi <? _)%Z eqn:?); lia.
Qed.

(** The positions of a slice are legal and pairwise different. *)
Lemma slice_positions_ok s n ps :
  slice_positions s n = Ok ps -> Forall (fun i => i < n) ps /\ NoDup ps.
Proof.
  unfold slice_positions. case_decide as Hs0; [done|]. set (st := default 1%Z (s_step s)) in *.
  intros [= <-].
  set (lower := if (st <? 0)%Z then (-1)%Z else 0%Z).
  set (upper := (if st <? 0 then Z.of_nat n - 1 else Z.of_nat n)%Z).
  set (start := match s_start s with None => _ | _ => _ end).
  set (stop := match s_stop s with None => _ | _ => _ end).
  assert (Hlu : (lower <= upper)%Z) by (unfold lower, upper; destruct (st <? 0)%Z; lia).
  assert (Hstart : (lower <= start <= upper)%Z).
  { unfold start. destruct (s_start s); [by apply slice_clamp_range|]. destruct (st <? 0)%Z; lia. }
  assert (Hstop : (lower <= stop <= upper)%Z).
  { unfold stop. destruct (s_stop s); [by apply slice_clamp_range|]. destruct (st <? 0)%Z; lia. }
  clearbody start stop.
  assert (Hpos : forall k, (Z.of_nat k < (if st <? 0
      then (if stop <? start then (start - stop - 1) / (- st) + 1 else 0)
      else (if start <? stop then (stop - start - 1) / st + 1 else 0)))%Z ->
      (0 <= start + Z.of_nat k * st < Z.of_nat n)%Z).
  { intros k. unfold lower, upper in *. destruct (Z.ltb_spec st 0).
    - destruct (Z.ltb_spec stop start); [|lia]. intros Hk.
      pose proof (Z.mul_div_le (start - stop - 1) (- st) ltac:(lia)). nia.
    - destruct (Z.ltb_spec start stop); [|lia]. intros Hk.
      pose proof (Z.mul_div_le (stop - start - 1) st ltac:(lia)). nia. }
  split.
  - apply Forall_fmap, Forall_forall. intros k [_ Hk]%elem_of_seq. simpl.
    specialize (Hpos k). lia.
  - apply NoDup_fmap_2_strong; [|apply NoDup_seq].
    intros x y Hx%elem_of_seq Hy%elem_of_seq Heq.
    assert (start + Z.of_nat x * st = start + Z.of_nat y * st)%Z as He.
    { pose proof (Hpos x ltac:(lia)). pose proof (Hpos y ltac:(lia)). lia. }
    assert ((Z.of_nat x - Z.of_nat y) * st = 0)%Z as Hm by lia.
    apply Z.eq_mul_0 in Hm. lia.
Qed.
Lemma slice_positions_all n : slice_positions slice_all n = Ok (seq 0 n).
Proof.
  unfold slice_positions. simpl. f_equal.
  replace (Z.to_nat _) with n.
  - rewrite <-(list_fmap_id (seq 0 n)) at 2. apply list_fmap_ext. intros ? k [-> ?]%lookup_seq. simpl. lia.
  - destruct (Z.ltb_spec 0 (Z.of_nat n)); [|lia]. rewrite Z.div_1_r. lia.
Qed.

Lemma py_slice_Ok {A} s (l l' : list A) :
  py_slice s l = Ok l' <->
  exists ps, slice_positions s (length l) = Ok ps /\ mapM (l !!.) ps = Some l'.
Proof.
  unfold py_slice. rewrite bind_ok. setoid_rewrite of_opt_ok. done.
Qed.
