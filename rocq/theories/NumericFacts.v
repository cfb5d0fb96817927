(** Facts about accumulations, reductions and clip. *)
From Verif Require Export LaneFacts NumFacts.

Lemma azip_amap {A B C} (f : B -> A -> C) (g : A -> B) a : azip f (amap g a) a = amap (fun v => f (g v) v) a.
Proof.
  unfold azip, amap. simpl. f_equal. induction (data a) as [|x l IH]; [done|]. simpl. by f_equal.
Qed.
Lemma amap_amap {A B C} (f : B -> C) (g : A -> B) a : amap f (amap g a) = amap (fun v => f (g v)) a.
Proof. unfold amap. simpl. f_equal. symmetry. apply (list_fmap_compose g f). Qed.

Lemma arith_to_num dt v : arithmetic dt -> has_dtype dt v = true -> exists n, to_num v = Some n.
Proof. intros [->|[->| ->]]; destruct v; simpl; intros; try done; eauto. Qed.
Lemma arith_numbers dt vs : arithmetic dt -> Forall (fun v => has_dtype dt v = true) vs -> exists ns, numbers vs ns.
Proof.
  intros Hd. induction 1 as [|v vs Hv _ [ns Hns]]; [exists []; constructor|].
  destruct (arith_to_num dt v Hd Hv) as [n Hn]. exists (n :: ns). by constructor.
Qed.
Lemma numbers_unique vs n1 n2 : numbers vs n1 -> numbers vs n2 -> n1 = n2.
Proof.
  intros H1. revert n2. induction H1 as [|v n vs ns Hv H1 IH]; intros n2 H2; inversion H2; subst; [done|].
  f_equal; [congruence|auto].
Qed.
Lemma int_num dt v n : arithmetic dt -> dt <> DFloat -> has_dtype dt v = true -> to_num v = Some n -> exists z, n = num_of_Z z /\ to_int v = Some z.
Proof. intros [->|[->| ->]] ? Ht; try done; destruct v; simpl in *; try done; intros [= <-]; eauto. Qed.

Lemma test_mask_ok p x : arithmetic (nd_dtype x) ->
  test_mask p x = Ok (amap (fun v => match to_num v with Some n => p n | None => false end) (nd_arr x)).
Proof. intros Hd. unfold test_mask. destruct Hd as [->|[->| ->]]; done. Qed.
Lemma test_mask_err p x : ~ arithmetic (nd_dtype x) -> test_mask p x = Err TypeError.
Proof. unfold arithmetic. intros Hd. unfold test_mask. destruct (nd_dtype x); naive_solver. Qed.

(** ** Scans *)
Lemma scan_from_length {A} (f : A -> A -> A) acc l : length (scan_from f acc l) = length l.
Proof. revert acc. induction l as [|x l IH]; intros acc; simpl; [done|]. by rewrite IH. Qed.
Lemma scan_length {A} (f : A -> A -> A) l : length (scan f l) = length l.
Proof. destruct l as [|x l]; [done|]. simpl. by rewrite scan_from_length. Qed.
Lemma scan_from_lookup {A} (f : A -> A -> A) acc l k :
  k < length l -> scan_from f acc l !! k = Some (fold_left f (take (S k) l) acc).
Proof.
  revert acc k. induction l as [|x l IH]; intros acc [|k] Hk; simpl in *; try lia; [done|].
  rewrite IH by lia. done.
Qed.
Lemma scan_lookup {A} (f : A -> A -> A) l k x l' :
  l = x :: l' -> k < length l -> scan f l !! k = Some (fold_left f (take k l') x).
Proof.
  intros -> Hk. destruct k as [|k]; [done|]. simpl in *. apply scan_from_lookup. lia.
Qed.

Definition cum_total (op : cum_op) (ns : list num) : num :=
  match op with CSum => num_total ns | CProd => num_product ns end.
Definition cum_unit (op : cum_op) : num := match op with CSum => num_of_Z 0 | CProd => num_of_Z 1 end.
Lemma cum_fold op ns a : fold_left (cum_num op) ns a = cum_num op a (cum_total op ns).
Proof. destruct op; [apply fold_total|apply fold_product]. Qed.
Lemma cum_total_cons op n ns : cum_total op (n :: ns) = cum_num op n (cum_total op ns).
Proof. by destruct op. Qed.
Lemma cum_unit_l op n : cum_num op (cum_unit op) n = n.
Proof. destruct op; [apply num_add_0_l|apply num_mul_1_l]. Qed.
Lemma scan_total op ns k : k < length ns -> scan (cum_num op) ns !! k = Some (cum_total op (take (S k) ns)).
Proof.
  intros Hk. destruct ns as [|n ns]; [simpl in Hk; lia|]. rewrite (scan_lookup _ _ _ n ns) by done.
  rewrite cum_fold. cbn [take]. by rewrite cum_total_cons.
Qed.

(** Elements without NaN, NaN replaced by the unit. *)
Definition unit_for (op : cum_op) (n : num) : num := if decide (n = NaN) then cum_unit op else n.
Lemma cum_total_present op ns : cum_total op (unit_for op <$> ns) = cum_total op (present ns).
Proof.
  induction ns as [|n ns IH]; [done|]. rewrite fmap_cons, cum_total_cons, IH. unfold present. rewrite filter_cons.
  unfold unit_for. case_decide as Hn.
  - rewrite decide_False by (intros H; by apply H). apply cum_unit_l.
  - rewrite decide_True by done. by rewrite cum_total_cons.
Qed.

(** Elements of one arithmetic dtype without bool. *)
Definition num_typed (vs : list val) : Prop :=
  Forall (fun v => has_dtype DFloat v = true) vs \/ Forall (fun v => has_dtype DInt v = true) vs.
Lemma cum_val_num op dt u v a b :
  dt = DFloat \/ dt = DInt -> has_dtype dt u = true -> has_dtype dt v = true ->
  to_num u = Some a -> to_num v = Some b ->
  has_dtype dt (cum_val op u v) = true /\ to_num (cum_val op u v) = Some (cum_num op a b).
Proof.
  intros [->| ->]; destruct u, v; simpl; intros Hu Hv; try done; intros [= <-] [= <-]; split; try done.
  f_equal. destruct op; [symmetry; apply num_add_Z|symmetry; apply num_mul_Z].
Qed.
Lemma scan_from_numbers op dt vs ns u a :
  dt = DFloat \/ dt = DInt -> has_dtype dt u = true -> to_num u = Some a ->
  Forall (fun v => has_dtype dt v = true) vs -> numbers vs ns ->
  Forall (fun v => has_dtype dt v = true) (scan_from (cum_val op) u vs) /\
  numbers (scan_from (cum_val op) u vs) (scan_from (cum_num op) a ns).
Proof.
  intros Hd Hu Ha Ht Hn. revert u a Hu Ha Ht. induction Hn as [|v n vs ns Hv Hn IH]; intros u a Hu Ha Ht; simpl.
  { split; constructor. }
  apply Forall_cons in Ht as [Htv Ht].
  destruct (cum_val_num op dt u v a n Hd Hu Htv Ha Hv) as [H1 H2].
  destruct (IH _ _ H1 H2 Ht). split; by constructor.
Qed.
Lemma scan_numbers op dt vs ns :
  dt = DFloat \/ dt = DInt -> Forall (fun v => has_dtype dt v = true) vs -> numbers vs ns ->
  Forall (fun v => has_dtype dt v = true) (scan (cum_val op) vs) /\
  numbers (scan (cum_val op) vs) (scan (cum_num op) ns).
Proof.
  intros Hd Ht Hn. destruct Hn as [|v n vs ns Hv Hn]; simpl; [split; constructor|].
  apply Forall_cons in Ht as [Htv Ht]. destruct (scan_from_numbers op dt vs ns v n Hd Htv Hv Ht Hn).
  split; by constructor.
Qed.
Lemma scan_typed op dt vs :
  dt = DFloat \/ dt = DInt -> Forall (fun v => has_dtype dt v = true) vs ->
  Forall (fun v => has_dtype dt v = true) (scan (cum_val op) vs).
Proof.
  intros Hd Ht. destruct (arith_numbers dt vs) as [ns Hn]; [unfold arithmetic; naive_solver|done|].
  by apply (scan_numbers op dt vs ns).
Qed.

(** ** Mapping the elements of a larry *)
Lemma lane_of_map y dt f ax ls vs :
  valid y -> (forall v, has_dtype (ldtype y) v = true -> has_dtype dt (f v) = true) ->
  lane_of (Larry (Nda dt (amap f (larr y))) (llabel y)) ax ls vs -> exists us, vs = f <$> us /\ lane_of y ax ls us.
Proof.
  intros Hv Ht (l & Hl & H). destruct (map_valid y dt f Hv Ht) as [_ Hc]. simpl in Hl.
  assert (exists us, vs = f <$> us /\ Forall2 (fun x v => cell y (with_label ax x ls) = Some v) l us) as (us & -> & Hus).
  { clear Hl. induction H as [|x v l vs Hx H IH]; [exists []; split; [done|constructor]|].
    destruct IH as (us & -> & Hus). rewrite Hc in Hx. apply fmap_Some in Hx as (u & Hu & ->).
    exists (u :: us). split; [done|]. by constructor. }
  exists us. split; [done|]. by exists l.
Qed.

(** The dtype of sums and products. *)
Definition cum_dtype (dt : dtype) : dtype := match dt with DBool => DInt | _ => dt end.

Definition cum_prep (op : cum_op) (dt : dtype) (v : val) : val :=
  match dt, v with
  | DFloat, VFloat NaN => VFloat (cum_unit op)
  | DBool, VBool b => VInt (if b then 1 else 0)
  | _, _ => v
  end.
Lemma cum_prep_typed op dt v : arithmetic dt -> has_dtype dt v = true -> has_dtype (cum_dtype dt) (cum_prep op dt v) = true.
Proof. intros [->|[->| ->]]; destruct v as [n| | | | |]; simpl; try done. by destruct n. Qed.
Lemma cum_prep_num op dt v n : arithmetic dt -> has_dtype dt v = true -> to_num v = Some n ->
  to_num (cum_prep op dt v) = Some (unit_for op n).
Proof.
  intros [->|[->| ->]]; destruct v as [m| | | | |]; simpl; try done; intros _ [= <-]; unfold unit_for.
  - destruct m; case_decide; done.
  - by rewrite decide_False.
  - by rewrite decide_False.
Qed.
Lemma cum_prep_eq op x : nda_wf x -> arithmetic (nd_dtype x) ->
  exists x1, putmask_scalar x (amap (fun v => match to_num v with Some n => is_nan n | None => false end) (nd_arr x))
               (VInt (match op with CSum => 0 | CProd => 1 end)) = Ok x1 /\
  nd_shape x1 = nd_shape x /\ bool_to_int x1 = Nda (cum_dtype (nd_dtype x)) (amap (cum_prep op (nd_dtype x)) (nd_arr x)).
Proof.
  intros [_ Ht] Hd. unfold putmask_scalar, bool_to_int. destruct x as [dt a]. simpl in *.
  assert (E : forall (f g : val -> val), (forall v, has_dtype dt v = true -> f v = g v) -> amap f a = amap g a).
  { intros f g Hfg. unfold amap. f_equal. apply list_fmap_ext. intros i v Hv.
    rewrite Forall_lookup in Ht. apply Hfg. by eapply Ht. }
  destruct Hd as [->|[->| ->]]; simpl; eexists; (split; [done|]); (split; [done|]); simpl; f_equal; rewrite ?azip_amap, ?amap_amap; apply E.
  - intros v Hv. destruct v as [n| | | | |]; try done. destruct n, op; done.
  - intros v Hv. by destruct v.
  - intros v Hv. by destruct v, op.
Qed.

Lemma larry_cum_total op y axis ax :
  valid y -> arithmetic (ldtype y) -> axis_is y axis ax ->
  exists z, larry_cum op y (Some axis) = Ok z /\ valid z /\ llabel z = llabel y /\ ldtype z = cum_dtype (ldtype y) /\
  forall ls, in_grid (llabel y) ls -> exists vs k v, in_lane y ax ls vs k /\ cell z ls = Some v /\ accumulates op vs k v.
Proof.
  intros Hv Hd Hax. pose proof (valid_wf y Hv) as Hwf. pose proof (valid_nodup y Hv) as Hnd.
  assert (Hax' : ax < lndim y) by (destruct Hax; by rewrite <-valid_ndim).
  unfold larry_cum. rewrite test_mask_ok by done. cbn [mbind res_bind].
  set (mask := amap _ _).
  destruct (cum_prep_eq op (lx y)) as (x1 & Hx1 & Hs1 & Hb1); [apply Hv|done|]. fold mask in Hx1. rewrite Hx1. cbn [mbind res_bind].
  destruct (map_valid y (cum_dtype (ldtype y)) (cum_prep op (ldtype y)) Hv) as [Hv1 Hc1].
  { intros v. by apply cum_prep_typed. }
  set (y1 := Larry (Nda (cum_dtype (ldtype y)) (amap (cum_prep op (ldtype y)) (larr y))) (llabel y)) in *.
  assert (Hcd : cum_dtype (ldtype y) = DFloat \/ cum_dtype (ldtype y) = DInt).
  { destruct Hd as [->|[->| ->]]; simpl; auto. }
  destruct (along_larry y1 ax (cum_dtype (ldtype y)) (scan (cum_val op)) Hv1) as (b & Hb & Hvb & Hcb).
  { exact Hax'. } { intros; apply scan_length. } { intros l. by apply scan_typed. }
  assert (Hnp : np_cum op x1 axis = Ok (Nda (cum_dtype (ldtype y)) b)).
  { unfold np_cum. replace (norm_axis (nd_ndim x1) axis) with (Some ax).
    - simpl. rewrite Hb1. cbn [nd_arr nd_dtype]. change (amap _ (nd_arr (lx y))) with (larr y1). rewrite Hb. done.
    - symmetry. unfold norm_axis. apply py_index_Some. unfold nd_ndim. rewrite Hs1. change (length (nd_shape (lx y))) with (lndim y).
      rewrite <-valid_ndim by done. apply Hax. }
  rewrite Hnp. cbn [mbind res_bind].
  set (zb := Larry (Nda (cum_dtype (ldtype y)) b) (llabel y1)) in *.
  assert (Hsb : shape b = lshape y).
  { rewrite <-(valid_shape y Hv). symmetry. exact (valid_shape zb Hvb). }
  (* the lane through a cell *)
  assert (Hlane : forall ls, in_grid (llabel y) ls -> exists vs ns k n v, in_lane y ax ls vs k /\ numbers vs ns /\ ns !! k = Some n /\
     cell zb ls = Some v /\ to_num v = Some (cum_total op (present (take (S k) ns))) /\
     exists u, cell y ls = Some u /\ to_num u = Some n).
  { intros ls Hg. destruct (Hcb ls Hg) as (vs1 & k & [Hl1 Hk1] & Hc). destruct (lane_of_map y _ _ ax _ vs1 Hv (fun v => cum_prep_typed op _ v Hd) Hl1) as (vs & -> & Hl).
    pose proof (lane_of_typed y ax _ vs Hv Hl) as Htv. destruct (arith_numbers _ _ Hd Htv) as [ns Hns].
    assert (Hn1 : numbers (cum_prep op (ldtype y) <$> vs) (unit_for op <$> ns)).
    { apply Forall2_fmap. clear -Hns Htv Hd. unfold numbers in Hns. induction Hns; constructor.
      - apply Forall_cons in Htv as [? _]. by eapply cum_prep_num.
      - apply IHHns. by apply Forall_cons in Htv as [_ ?]. }
    assert (Ht1 : Forall (fun v => has_dtype (cum_dtype (ldtype y)) v = true) (cum_prep op (ldtype y) <$> vs)).
    { apply Forall_fmap. eapply Forall_impl; [exact Htv|]. intros v. by apply cum_prep_typed. }
    destruct (scan_numbers op _ _ _ Hcd Ht1 Hn1) as [_ Hsn].
    destruct Hk1 as (l & x & Hlx & Hx & Hk). pose proof (lane_of_length y ax _ vs l Hl Hlx) as Hlen.
    assert (Hkl : k < length ns).
    { rewrite <-(Forall2_length _ _ _ Hns), Hlen. by eapply lookup_lt_Some. }
    destruct (lookup_lt_is_Some_2 ns k Hkl) as [n Hn].
    assert (Hkv : is_Some (vs !! k)) by (apply lookup_lt_is_Some; by rewrite (Forall2_length _ _ _ Hns)).
    destruct Hkv as [u Hu].
    assert (Hsk : scan (cum_num op) (unit_for op <$> ns) !! k = Some (cum_total op (present (take (S k) ns)))).
    { rewrite scan_total by (by rewrite fmap_length). rewrite <-fmap_take, cum_total_present. done. }
    destruct (Forall2_lookup_r _ _ _ _ _ Hsn Hsk) as (v & Hv' & Hvn).
    exists vs, ns, k, n, v. rewrite Hc, Hv'. split_and!; try done.
    - split; [done|]. by exists l, x.
    - exists u. split; [|by eapply (Forall2_lookup_lr _ _ _ _ _ _ Hns Hu Hn)].
      destruct Hl as (l' & Hl' & HF). assert (l' = l) as -> by (simpl in Hlx; congruence).
      pose proof (Forall2_lookup_lr _ _ _ _ _ _ HF Hk Hu) as Hcu. simpl in Hcu. by rewrite with_label_delete in Hcu. }
  assert (Hacc : forall ls vs ns k n v v', in_lane y ax ls vs k -> numbers vs ns -> ns !! k = Some n -> 
     to_num v = Some (cum_total op (present (take (S k) ns))) ->
     v' = (if decide (n = NaN) then VFloat NaN else v) -> accumulates op vs k v').
  { intros ls vs ns k n v v' Hin Hns Hn Hvn ->. exists ns, n. destruct (decide (n = NaN)) as [->|Hne].
    - exists NaN. split_and!; done.
    - eexists. split_and!; [done..|]. by destruct op. }
  assert (Hwm : arr_wf mask) by (by apply amap_wf).
  destruct (any_true mask) eqn:Eany.
  - apply any_true_spec in Eany as (i0 & Hi0); [|done]. unfold mask in Hi0. rewrite get_amap in Hi0.
    apply fmap_Some in Hi0 as (u0 & Hu0 & Hn0).
    assert (Hdt : cum_dtype (ldtype y) = DFloat).
    { assert (Ht0 : has_dtype (ldtype y) u0 = true) by (by eapply nda_wf_typed; [apply Hv|]).
      destruct Hd as [->|[E|E]]; [done|..]; rewrite E in Ht0; by destruct u0. }
    unfold putmask_scalar. cbn [nd_dtype nd_arr]. rewrite Hdt. simpl. eexists. split; [done|].
    set (z := Larry (Nda DFloat (azip _ mask b)) (llabel y)).
    assert (Hg : forall idx, aget (larr z) idx = (m ← aget mask idx; u ← aget b idx; Some (if m : bool then VFloat NaN else u))).
    { intros idx. apply get_azip. unfold mask. simpl. by rewrite Hsb. }
    assert (Hvz : valid z).
    { split_and!; [|apply Hv|exact (valid_shape y Hv)|done]. apply nda_wf_get.
      - apply azip_wf; [done|apply Hvb|by rewrite Hsb].
      - intros idx w Hw. change (aget (larr z) idx = Some w) in Hw. rewrite Hg in Hw.
        destruct (aget mask idx) as [m|]; [|done]. simpl in Hw. destruct (aget b idx) as [u|] eqn:Hu; [|done]. simpl in Hw.
        injection Hw as <-. destruct m; [done|]. change (has_dtype DFloat u = true). rewrite <-Hdt. exact (nda_wf_typed _ _ _ (proj1 Hvb) Hu). }
    split_and!; [done|done|done|]. intros ls Hgr.
    destruct (Hlane ls Hgr) as (vs & ns & k & n & v & Hin & Hns & Hn & Hcz & Hvn & u & Hu & Hun).
    exists vs, k, (if decide (n = NaN) then VFloat NaN else v). split; [done|]. split; [|by eapply Hacc].
    apply in_grid_labels_at in Hgr as [idx Hl]. rewrite (cell_at z idx ls Hnd Hl), Hg.
    rewrite (cell_at y idx ls Hnd Hl) in Hu. rewrite (cell_at zb idx ls Hnd Hl) in Hcz. change (larr zb) with b in Hcz.
    unfold mask. rewrite get_amap. change (nd_arr (lx y)) with (larr y). rewrite Hu. simpl. rewrite Hcz, Hun. simpl.
    by destruct n.
  - simpl. exists zb. split_and!; try done. intros ls Hgr.
    destruct (Hlane ls Hgr) as (vs & ns & k & n & v & Hin & Hns & Hn & Hcz & Hvn & u & Hu & Hun).
    exists vs, k, v. split_and!; [done..|]. eapply Hacc; [done..|]. rewrite decide_False; [done|]. intros ->.
    apply in_grid_labels_at in Hgr as [idx Hl]. rewrite (cell_at y idx ls Hnd Hl) in Hu.
    apply not_true_iff_false in Eany. apply Eany. apply any_true_spec; [done|]. exists idx. unfold mask.
    rewrite get_amap. change (nd_arr (lx y)) with (larr y). rewrite Hu. simpl. by rewrite Hun.
Qed.

Lemma larry_cum_err op y axis :
  valid y -> (forall z, larry_cum op y axis <> Ok z) <->
  axis = None \/ ~ arithmetic (ldtype y) \/ exists a, axis = Some a /\ forall ax, ~ axis_is y a ax.
Proof.
  intros Hv. split.
  - intros H. destruct axis as [a|]; [right|by left]. destruct (decide (numeric (ldtype y) = true)) as [Hd|Hd].
    + assert (Hd' : arithmetic (ldtype y)) by (unfold arithmetic; destruct (ldtype y); naive_solver).
      destruct (py_axis y a) as [ax|e] eqn:Ea.
      * apply py_axis_is in Ea. destruct (larry_cum_total op y a ax Hv Hd' Ea) as (z & Hz & _). naive_solver.
      * right. exists a. split; [done|]. intros ax Hax%py_axis_is. congruence.
    + left. intros [E|[E|E]]; rewrite E in Hd; by apply Hd.
  - intros [->|[Hd|(a & -> & Hna)]] z Hz; [done|..].
    + unfold larry_cum in Hz. destruct axis; [|done]. by rewrite test_mask_err in Hz.
    + unfold larry_cum in Hz. apply bind_ok in Hz as (m & Hm & Hz). apply bind_ok in Hz as (x1 & Hx1 & Hz).
      apply bind_ok in Hz as (x2 & Hx2 & _). unfold np_cum in Hx2. apply bind_ok in Hx2 as (ax & Hax%of_opt_ok & _).
      apply (Hna ax). unfold norm_axis in Hax. apply py_index_Some in Hax.
      assert (nd_ndim x1 = length (llabel y)) as E.
      { rewrite valid_ndim by done. unfold putmask_scalar in Hx1. apply bind_ok in Hx1 as (r & _ & [= <-]).
        unfold test_mask in Hm. unfold nd_ndim, nd_shape. simpl. destruct (nd_dtype (lx y)); inversion Hm; done. }
      unfold axis_is. rewrite <-E. done.
Qed.

Lemma larry_cum_spec op y axis z :
  valid y -> larry_cum op y axis = Ok z ->
  exists a ax, axis = Some a /\ axis_is y a ax /\ arithmetic (ldtype y) /\ valid z /\ llabel z = llabel y /\
  forall ls, in_grid (llabel y) ls -> exists vs k v, in_lane y ax ls vs k /\ cell z ls = Some v /\ accumulates op vs k v.
Proof.
  intros Hv Hz. assert (Hn : ~ (forall z, larry_cum op y axis <> Ok z)) by naive_solver.
  rewrite larry_cum_err in Hn by done. destruct axis as [a|]; [|naive_solver].
  destruct (py_axis y a) as [ax|e] eqn:Ea.
  - apply py_axis_is in Ea. assert (Hd : arithmetic (ldtype y)).
    { unfold arithmetic in *. destruct (ldtype y); try (by eauto); exfalso; apply Hn; naive_solver. }
    destruct (larry_cum_total op y a ax Hv Hd Ea) as (z' & Hz' & ? & ? & ? & ?). assert (z' = z) as -> by congruence.
    exists a, ax. done.
  - exfalso. apply Hn. right. right. exists a. split; [done|]. intros ax Hax%py_axis_is. congruence.
Qed.

(** ** clip *)
Lemma clip_num_spec lo hi n : lo <> NaN -> hi <> NaN -> num_ltb hi lo = false -> clipped lo hi n (clip_num lo hi n).
Proof.
  intros Hlo Hhi Hlh. unfold clip_num, clipped.
  assert (Hle : num_le lo hi).
  { destruct (num_le_total lo hi Hlo Hhi) as [?|H%num_ltb_lt]; [done|congruence]. }
  split_and!.
  - intros ->. by destruct lo, hi.
  - intros H%num_ltb_lt. by rewrite H.
  - intros H. destruct (num_ltb n lo) eqn:E.
    + apply num_ltb_lt in E. exfalso. eapply num_lt_not_le; [eapply num_lt_trans; [exact H|exact E]|done].
    + apply num_ltb_lt in H. by rewrite H.
  - intros H1 H2. destruct (num_ltb n lo) eqn:E; [apply num_ltb_lt in E; by apply num_lt_not_le in E|].
    destruct (num_ltb hi n) eqn:E'; [apply num_ltb_lt in E'; by apply num_lt_not_le in E'|]. done.
Qed.

(** Which combinations of dtype and bounds are modelled. *)
Definition clip_typed (dt : dtype) (lo hi : val) : Prop :=
  dt = DFloat \/ dt = DInt /\ has_dtype DInt lo = true /\ has_dtype DInt hi = true.
Lemma larry_clip_total y lo hi l h :
  valid y -> clip_typed (ldtype y) lo hi -> to_num lo = Some l -> to_num hi = Some h -> l <> NaN -> h <> NaN ->
  if num_ltb h l then larry_clip y lo hi = Err ValueError
  else exists z, larry_clip y lo hi = Ok z /\ valid z /\ llabel z = llabel y /\ ldtype z = ldtype y /\
    forall ls v, cell y ls = Some v -> exists n w m, to_num v = Some n /\ cell z ls = Some w /\ to_num w = Some m /\ clipped l h n m.
Proof.
  intros Hv Hty Hl Hh Hln Hhn. unfold larry_clip. rewrite Hl, Hh. simpl. destruct (num_ltb h l) eqn:Ehl; [done|].
  destruct Hty as [Hd|(Hd & Hlo & Hhi)]; rewrite Hd.
  - eexists. split; [done|].
    destruct (map_valid y DFloat (fun v => match v with VFloat n => VFloat (clip_num l h n) | _ => v end) Hv) as [Hz Hc].
    { rewrite Hd. intros v. by destruct v. }
    split_and!; [done|done|done|]. intros ls v Hcv. specialize (Hc ls). rewrite Hcv in Hc. simpl in Hc.
    pose proof (valid_cell_typed y ls v Hv Hcv) as Ht. rewrite Hd in Ht. destruct v as [n| | | | |]; try done.
    exists n, (VFloat (clip_num l h n)), (clip_num l h n). split_and!; [done|exact Hc|done|]. by apply clip_num_spec.
  - destruct lo as [|a| | | |]; try done. destruct hi as [|b| | | |]; try done. eexists. split; [done|].
    injection Hl as <-. injection Hh as <-.
    assert (Hab : (a <= b)%Z).
    { destruct (decide (b < a)%Z) as [H|]; [|lia]. apply num_of_Z_lt, num_ltb_lt in H. congruence. }
    destruct (map_valid y DInt (fun v => match v with VInt z => VInt (if decide (z < a)%Z then a else if decide (b < z)%Z then b else z) | _ => v end) Hv) as [Hz Hc].
    { rewrite Hd. intros v. by destruct v. }
    split_and!; [done|done|done|]. intros ls v Hcv. specialize (Hc ls). rewrite Hcv in Hc. simpl in Hc.
    pose proof (valid_cell_typed y ls v Hv Hcv) as Ht. rewrite Hd in Ht. destruct v as [|z0| | | |]; try done.
    eexists _, _, _. split_and!; [done|exact Hc|done|]. unfold clipped. rewrite !num_of_Z_lt, !num_of_Z_le.
    repeat case_decide; split_and!; intros; try done; try lia; f_equal; lia.
Qed.
