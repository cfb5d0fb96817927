(** Proofs about [assert_larry_equal]. *)
From Verif Require Export Equal UniqueFacts TestingFacts.
From Coq Require Import Lqa.

(** * Rounding *)
Lemma this_sub (p q : Qc) : (this (p - q)%Qc == this p - this q)%Q.
Proof. unfold Qcminus, Qcplus, Qcopp. simpl. by rewrite !Qred_correct. Qed.
Lemma this_add (p q : Qc) : (this (p + q)%Qc == this p + this q)%Q.
Proof. unfold Qcplus. simpl. by rewrite !Qred_correct. Qed.
Lemma this_mul (p q : Qc) : (this (p * q)%Qc == this p * this q)%Q.
Proof. unfold Qcmult. simpl. by rewrite !Qred_correct. Qed.
Lemma this_opp (p : Qc) : (this (- p)%Qc == - this p)%Q.
Proof. unfold Qcopp. simpl. by rewrite !Qred_correct. Qed.
Lemma this_Z z : (this (Qc_of_Z z) == inject_Z z)%Q.
Proof. reflexivity. Qed.
Lemma this_Q2Qc q : (this (Q2Qc q) == q)%Q.
Proof. cbn [this Q2Qc]. by rewrite Qred_correct. Qed.

Lemma rint_le_1 q : (rint q <= 1)%Z <-> (this q < 3 # 2)%Q.
Proof.
  unfold rint. set (f := Qround.Qfloor (this q)). set (r := (q - Qc_of_Z f)%Qc).
  assert (Hr : (this r == this q - inject_Z f)%Q) by (unfold r; by rewrite this_sub, this_Z).
  pose proof (Qround.Qfloor_le (this q)) as Hlo. pose proof (Qround.Qlt_floor (this q)) as Hhi. fold f in Hlo, Hhi.
  rewrite inject_Z_plus in Hhi. change (inject_Z 1) with 1%Q in Hhi.
  assert (Hz : forall a b, (a <= b)%Z -> (inject_Z a <= inject_Z b)%Q) by (intros a b; rewrite <-Zle_Qle; done).
  destruct (Qc_ltb r (Q2Qc (1 # 2))) eqn:E1.
  { apply Qc_ltb_lt in E1. unfold Qclt in E1. rewrite this_Q2Qc, Hr in E1. split; intros H.
    - apply Hz in H. change (inject_Z 1) with 1%Q in H. lra.
    - destruct (Z_le_gt_dec f 1) as [|Hgt]; [done|]. assert (2 <= f)%Z as H2%Hz by lia. change (inject_Z 2) with 2%Q in H2. lra. }
  apply Qc_ltb_ge in E1. unfold Qcle in E1. rewrite this_Q2Qc, Hr in E1.
  destruct (Qc_ltb (Q2Qc (1 # 2)) r) eqn:E2.
  { apply Qc_ltb_lt in E2. unfold Qclt in E2. rewrite this_Q2Qc, Hr in E2. split; intros H.
    - assert (f <= 0)%Z as H0%Hz by lia. change (inject_Z 0) with 0%Q in H0. lra.
    - destruct (Z_le_gt_dec f 0) as [|Hgt]; [lia|]. assert (1 <= f)%Z as H2%Hz by lia. change (inject_Z 1) with 1%Q in H2. lra. }
  apply Qc_ltb_ge in E2. unfold Qcle in E2. rewrite this_Q2Qc, Hr in E2.
  assert (Hq : (this q == inject_Z f + (1 # 2))%Q) by lra.
  destruct (Z.even f) eqn:Ev; split; intros H.
  - assert (f <= 0)%Z as H0%Hz.
    { destruct (Z.eq_dec f 1) as [E|]; [rewrite E in Ev; done|lia]. }
    change (inject_Z 0) with 0%Q in H0. lra.
  - destruct (Z_le_gt_dec f 1) as [|Hgt]; [done|]. assert (2 <= f)%Z as H2%Hz by lia. change (inject_Z 2) with 2%Q in H2. lra.
  - assert (f <= 0)%Z as H0%Hz by lia. change (inject_Z 0) with 0%Q in H0. lra.
  - destruct (Z_le_gt_dec f 0) as [|Hgt]; [lia|]. assert (1 <= f)%Z as H2%Hz by lia. change (inject_Z 1) with 1%Q in H2. lra.
Qed.
Lemma round2_0 q : (0 <= this q)%Q -> round2 q = 0%Z <-> (this q < 1 # 2)%Q.
Proof.
  intros Hq. unfold round2. set (s := (q + Q2Qc (1 # 2))%Qc). assert (Hs : (this s == this q + (1 # 2))%Q) by (unfold s; by rewrite this_add, this_Q2Qc).
  pose proof (Qround.Qfloor_le (this s)) as Hlo. pose proof (Qround.Qlt_floor (this s)) as Hhi. set (f := Qround.Qfloor (this s)) in *.
  rewrite inject_Z_plus in Hhi. change (inject_Z 1) with 1%Q in Hhi.
  assert (Hz : forall a b, (a <= b)%Z -> (inject_Z a <= inject_Z b)%Q) by (intros a b; rewrite <-Zle_Qle; done).
  split; intros H.
  - rewrite H in Hhi. change (inject_Z 0) with 0%Q in Hhi. lra.
  - destruct (Z_lt_le_dec f 0) as [Hf|Hf].
    { assert (f + 1 <= 0)%Z as H1%Hz by lia. rewrite inject_Z_plus in H1. change (inject_Z 1) with 1%Q in H1. change (inject_Z 0) with 0%Q in H1. lra. }
    destruct (Z_le_gt_dec f 0) as [|Hgt]; [lia|]. assert (1 <= f)%Z as H2%Hz by lia. change (inject_Z 1) with 1%Q in H2. lra.
Qed.
Lemma abs_cases d : exists e, num_abs (Fin d) = Fin e /\ (0 <= this e)%Q /\ ((this e == this d)%Q \/ (this e == - this d)%Q).
Proof.
  simpl. destruct (Qc_ltb d 0) eqn:E; eexists; (split; [done|]).
  - apply Qc_ltb_lt in E. unfold Qclt in E. change (this 0%Qc) with 0%Q in E. rewrite this_opp. split; [lra|by right].
  - apply Qc_ltb_ge in E. unfold Qcle in E. change (this 0%Qc) with 0%Q in E. split; [lra|by left].
Qed.

Lemma almost_elem_fin v w p q : to_num v = Some (Fin p) -> to_num w = Some (Fin q) -> almost_elem v w = true <-> near tol_array (Fin p) (Fin q).
Proof.
  intros Hv Hw. unfold almost_elem. rewrite Hv, Hw. unfold num_sub. cbn [num_neg num_add]. change (p + - q)%Qc with (p - q)%Qc.
  destruct (abs_cases (p - q)%Qc) as (e & -> & He & Hd). rewrite Z.leb_le, rint_le_1, this_mul, this_Z. rewrite this_sub in Hd.
  cbn [near]. unfold Qclt, tol_array. rewrite !this_sub, this_Q2Qc. change (inject_Z (10 ^ 13)) with (10000000000000#1)%Q. destruct Hd as [Hd|Hd]; (split; [intros H; split|intros [H H']]); lra.
Qed.
Lemma scalar_almost_fin v w p q : to_num v = Some (Fin p) -> to_num w = Some (Fin q) ->
  exists b, scalar_almost v w = Ok b /\ (b = true <-> near tol_scalar (Fin p) (Fin q)).
Proof.
  intros Hv Hw. unfold scalar_almost. rewrite Hv, Hw. destruct (abs_cases (q - p)%Qc) as (e & -> & He & Hd). eexists. split; [done|]. rewrite this_sub in Hd.
  rewrite bool_decide_eq_true. rewrite round2_0; rewrite this_mul, this_Z; change (inject_Z (10 ^ 7)) with (10000000#1)%Q; [|lra].
  cbn [near]. unfold Qclt, tol_scalar. rewrite !this_sub, this_Q2Qc. destruct Hd as [Hd|Hd]; (split; [intros H; split|intros [H H']]); lra.
Qed.

(** * Arrays *)
Lemma any_false l : any l = false <-> l = replicate (length l) false.
Proof.
  unfold any. induction l as [|b l IH]; [done|]. cbn. destruct b; cbn; [by split|]. rewrite IH. split; [by intros <-|by intros [= <-]].
Qed.
Lemma any_check (a b : list bool) : length a = length b -> (if any a || any b then bool_decide (a = b) else true) = bool_decide (a = b).
Proof.
  intros Hl. destruct (any a) eqn:Ea; [done|]. destruct (any b) eqn:Eb; [done|]. cbn. symmetry. apply bool_decide_eq_true.
  apply any_false in Ea as ->, Eb as ->. by rewrite Hl.
Qed.
Definition numbers (vs : list val) : Prop := Forall (fun v => is_Some (to_num v)) vs.
Definition bad (v : val) : bool := num_test is_nan v || num_test is_inf v.
Definition agree (cmp : val -> val -> bool) (v w : val) : Prop :=
  match to_num v, to_num w with
  | Some (Fin _), Some (Fin _) => cmp v w = true
  | Some m, Some n => m = n
  | _, _ => False
  end.
Lemma inf_check vs ws : length vs = length ws ->
  (if any (num_test is_inf <$> vs) || any (num_test is_inf <$> ws)
   then bool_decide ((num_test (fun n => num_eqb n PInf) <$> vs) = (num_test (fun n => num_eqb n PInf) <$> ws)) &&
        bool_decide ((num_test (fun n => num_eqb n NInf) <$> vs) = (num_test (fun n => num_eqb n NInf) <$> ws))
   else true) =
  bool_decide ((num_test (fun n => num_eqb n PInf) <$> vs) = (num_test (fun n => num_eqb n PInf) <$> ws)) &&
  bool_decide ((num_test (fun n => num_eqb n NInf) <$> vs) = (num_test (fun n => num_eqb n NInf) <$> ws)).
Proof.
  intros Hl.
  assert (Hno : forall us, any (num_test is_inf <$> us) = false ->
    (num_test (fun n => num_eqb n PInf) <$> us) = replicate (length us) false /\ (num_test (fun n => num_eqb n NInf) <$> us) = replicate (length us) false).
  { unfold any, num_test. induction us as [|u us IH]; [done|]. cbn. destruct (to_num u) as [[| | |]|]; cbn; try done; intros H; destruct (IH H) as [-> ->]; done. }
  destruct (any (_ <$> vs)) eqn:Ea; [done|]. destruct (any (_ <$> ws)) eqn:Eb; [done|]. cbn.
  apply Hno in Ea as [-> ->], Eb as [-> ->]. rewrite Hl. by rewrite !bool_decide_eq_true_2 by done.
Qed.
Lemma zip_orb (vs : list val) : zip_with orb (num_test is_nan <$> vs) (num_test is_inf <$> vs) = bad <$> vs.
Proof. induction vs as [|v vs IH]; [done|]. cbn. by rewrite IH. Qed.
Lemma compress_none {A} (f : A -> bool) l : Forall (fun x => f x = true) l -> compress (f <$> l) l = l.
Proof. induction 1 as [|x l Hx H IH]; [done|]. cbn [fmap list_fmap]. rewrite Hx, compress_true. by rewrite IH. Qed.
Lemma compress_all {A} (f : A -> bool) l : Forall (fun x => f x = false) l -> compress (f <$> l) l = [].
Proof. induction 1 as [|x l Hx H IH]; [done|]. cbn [fmap list_fmap]. rewrite Hx, compress_false. by rewrite IH. Qed.
Lemma any_forall_false (f : val -> bool) l : any (f <$> l) = false -> Forall (fun x => f x = false) l.
Proof. unfold any. induction l as [|x l IH]; [done|]. cbn. destruct (f x) eqn:E; [done|]. cbn. intros H. constructor; [done|auto]. Qed.

Lemma compare_split cmp vs ws : numbers vs -> numbers ws -> length vs = length ws ->
  (num_test is_nan <$> vs) = (num_test is_nan <$> ws) /\
  (num_test (fun n => num_eqb n PInf) <$> vs) = (num_test (fun n => num_eqb n PInf) <$> ws) /\
  (num_test (fun n => num_eqb n NInf) <$> vs) = (num_test (fun n => num_eqb n NInf) <$> ws) /\
  all_of cmp (compress (negb <$> (bad <$> vs)) vs) (compress (negb <$> (bad <$> ws)) ws) = true <->
  Forall2 (agree cmp) vs ws.
Proof.
  intros Hv. revert ws. induction Hv as [|v vs [m Hm] Hvs IH]; intros [|w ws] Hw Hl; try done.
  apply Forall_cons in Hw as [[n Hn] Hws]. injection Hl as Hl. specialize (IH ws Hws Hl).
  assert (Tv : forall f, num_test f v = f m) by (intros; unfold num_test; by rewrite Hm).
  assert (Tw : forall f, num_test f w = f n) by (intros; unfold num_test; by rewrite Hn).
  assert (Bv : bad v = is_nan m || is_inf m) by (unfold bad; by rewrite !Tv). assert (Bw : bad w = is_nan n || is_inf n) by (unfold bad; by rewrite !Tw).
  cbn [fmap list_fmap]. rewrite !Tv, !Tw, Bv, Bw.
  rewrite Forall2_cons. unfold agree at 1. rewrite Hm, Hn, <-IH. clear IH.
  destruct m as [p| | |], n as [q| | |]; cbn [is_nan is_inf negb orb num_eqb]; rewrite ?compress_true, ?compress_false; unfold all_of; cbn [zip_with forallb]; repeat case_bool_decide; try done;
    (split; [intros (E1 & E2 & E3 & E4); try discriminate E1; try discriminate E2; try discriminate E3;
       injection E1 as E1; injection E2 as E2; injection E3 as E3; rewrite ?andb_true_iff in E4; tauto
      |intros (E0 & E1 & E2 & E3 & E4); try discriminate E0; rewrite ?andb_true_iff, E1, E2, E3; tauto]).
Qed.
Lemma array_compare_num cmp x y : number_dtype (nd_dtype x) = true -> number_dtype (nd_dtype y) = true ->
  numbers (data (nd_arr x)) -> numbers (data (nd_arr y)) -> arr_wf (nd_arr x) -> arr_wf (nd_arr y) ->
  array_compare cmp x y = true <-> nd_shape x = nd_shape y /\ Forall2 (agree cmp) (data (nd_arr x)) (data (nd_arr y)).
Proof.
  intros Hdx Hdy Hnx Hny Hlx Hly. unfold array_compare. destruct (decide (nd_shape x = nd_shape y)) as [Es|]; [|by split; [|intros [? _]]].
  rewrite Hdx, Hdy. cbn [andb]. set (vs := data (nd_arr x)) in *. set (ws := data (nd_arr y)) in *.
  assert (Hl : length vs = length ws) by (unfold arr_wf, asize in Hlx, Hly; unfold nd_shape in Es; fold vs ws in Hlx, Hly; rewrite Hlx, Hly; by rewrite Es).
  rewrite any_check by (by rewrite !fmap_length). rewrite inf_check by done. rewrite !zip_orb.
  rewrite <-(compare_split cmp vs ws Hnx Hny Hl). rewrite !andb_true_iff, !bool_decide_eq_true.
  assert (Hid : (num_test is_nan <$> vs) = (num_test is_nan <$> ws) ->
    (num_test (fun n => num_eqb n PInf) <$> vs) = (num_test (fun n => num_eqb n PInf) <$> ws) ->
    (num_test (fun n => num_eqb n NInf) <$> vs) = (num_test (fun n => num_eqb n NInf) <$> ws) -> (bad <$> vs) = (bad <$> ws)).
  { clearbody vs ws. clear. revert ws. induction vs as [|v vs IH]; intros [|w ws]; try done. cbn [fmap list_fmap]. intros [= E1 H1] [= E2 H2] [= E3 H3].
    f_equal; [|by apply IH]. revert E1 E2 E3. unfold bad, num_test. destruct (to_num v) as [[| | |]|], (to_num w) as [[| | |]|]; done. }
  assert (Hrest : (bad <$> vs) = (bad <$> ws) ->
    (if forallb (fun b => b) (bad <$> vs) then true
     else if any (bad <$> vs) then all_of cmp (compress (negb <$> (bad <$> vs)) vs) (compress (negb <$> (bad <$> ws)) ws)
     else all_of cmp vs ws) = all_of cmp (compress (negb <$> (bad <$> vs)) vs) (compress (negb <$> (bad <$> ws)) ws)).
  { intros E. destruct (forallb _ _) eqn:Ef.
    { assert (Hc : compress (negb <$> (bad <$> vs)) vs = []).
      { rewrite <-list_fmap_compose. apply compress_all. clearbody vs. clear -Ef. induction vs as [|v vs IH]; [constructor|]. cbn in Ef. apply andb_true_iff in Ef as [E1 E2].
        constructor; [cbn; by rewrite E1|by apply IH]. }
      by rewrite Hc. }
    destruct (any (bad <$> vs)) eqn:Ea; [done|]. pose proof Ea as Eb. rewrite E in Eb. apply any_forall_false in Ea, Eb. rewrite <-!list_fmap_compose.
    rewrite !compress_none; [done|..]; (eapply Forall_impl; [eassumption|]); intros u Hu; cbn; by rewrite Hu. }
  split.
  - intros [[H1 [H2 H3]] H4]. split; [done|]. split_and!; try done. by rewrite Hrest in H4 by (by apply Hid).
  - intros [_ (H1 & H2 & H3 & H4)]. split_and!; try done. by rewrite Hrest by (by apply Hid).
Qed.
Lemma array_compare_other cmp x y : number_dtype (nd_dtype x) && number_dtype (nd_dtype y) = false ->
  arr_wf (nd_arr x) -> arr_wf (nd_arr y) ->
  array_compare cmp x y = true <-> nd_shape x = nd_shape y /\ Forall2 (fun v w => cmp v w = true) (data (nd_arr x)) (data (nd_arr y)).
Proof.
  intros Hd Hlx Hly. unfold array_compare. destruct (decide (nd_shape x = nd_shape y)) as [Es|]; [|by split; [|intros [? _]]].
  rewrite Hd. assert (Hl : length (data (nd_arr x)) = length (data (nd_arr y))) by (unfold arr_wf, asize in Hlx, Hly; unfold nd_shape in Es; rewrite Hlx, Hly; by rewrite Es).
  clear Hlx Hly. unfold all_of. revert Hl. generalize (data (nd_arr x)) (data (nd_arr y)). clear -Es. intros vs. induction vs as [|v vs IH]; intros [|w ws] Hl; try done.
  injection Hl as Hl. specialize (IH ws Hl). cbn. rewrite andb_true_iff, Forall2_cons. rewrite IH. tauto.
Qed.

(** * Larrys *)
Lemma cells_forall2 (R : val -> val -> Prop) y z : valid y -> valid z -> llabel y = llabel z ->
  Forall2 R (data (larr y)) (data (larr z)) <-> forall ls v w, cell y ls = Some v -> cell z ls = Some w -> R v w.
Proof.
  intros Hy Hz Hl.
  assert (Hs : shape (larr y) = shape (larr z)).
  { pose proof (valid_shape _ Hy) as H1. pose proof (valid_shape _ Hz) as H2. unfold lshape, nd_shape in *. unfold larr. congruence. }
  pose proof (valid_wf _ Hy) as Wy. pose proof (valid_wf _ Hz) as Wz. split.
  - intros H ls v w Hv Hw. apply cell_Some in Hv as (idx & Hi & Hv); [|by apply valid_nodup]. apply cell_Some in Hw as (idx' & Hi' & Hw); [|by apply valid_nodup].
    rewrite <-Hl in Hi'. apply locate_Some in Hi; [|by apply valid_nodup]. apply locate_Some in Hi'; [|by apply valid_nodup]. assert (idx' = idx) as -> by congruence.
    unfold aget in Hv, Hw. rewrite <-Hs in Hw. destruct (decide _); [|done]. by eapply Forall2_lookup_lr.
  - intros H. apply Forall2_same_length_lookup_2.
    { unfold arr_wf, asize in Wy, Wz. rewrite Wy, Wz. by rewrite Hs. }
    intros k v w Hv Hw. assert (Hk : k < size_of (shape (larr y))). { apply lookup_lt_Some in Hv. by rewrite Wy in Hv. }
    destruct (ravel_surj _ _ Hk) as (idx & Hr & Ek).
    assert (Gv : aget (larr y) idx = Some v) by (unfold aget; rewrite decide_True by done; by rewrite Ek).
    assert (Gw : aget (larr z) idx = Some w) by (unfold aget; rewrite <-Hs, decide_True by done; by rewrite Ek).
    destruct (valid_index_at y idx v Hy Gv) as (ls & Hls & Hcv). apply (H ls); [done|].
    rewrite (cell_at z idx ls); [done|by apply valid_nodup|by rewrite <-Hl].
Qed.
Lemma typed_number dt vs : number_dtype dt = true -> Forall (fun v => has_dtype dt v = true) vs -> numbers vs.
Proof. intros Hd H. eapply Forall_impl; [exact H|]. intros v. destruct dt, v; try done; cbn; eauto. Qed.
Lemma typed_one dt v : number_dtype dt = true -> has_dtype dt v = true -> exists n, to_num v = Some n.
Proof. intros Hd. destruct dt, v; try done; cbn; eauto. Qed.
Lemma agree_almost v w m n : to_num v = Some m -> to_num w = Some n -> agree almost_elem v w <-> near tol_array m n.
Proof.
  intros Hm Hn. unfold agree. rewrite Hm, Hn. destruct m as [p| | |], n as [q| | |]; try done. by apply almost_elem_fin.
Qed.
Lemma agree_eq v w m n : to_num v = Some m -> to_num w = Some n -> agree eq_elem v w <-> m = n.
Proof.
  intros Hm Hn. unfold agree. rewrite Hm, Hn. destruct m as [p| | |], n as [q| | |]; try done.
  unfold eq_elem. rewrite Hm, Hn. cbn. by rewrite bool_decide_eq_true.
Qed.
Lemma int_not_nan dt v : (dt = DInt \/ dt = DBool) -> has_dtype dt v = true -> to_num v <> Some NaN.
Proof. intros [-> | ->]; by destruct v. Qed.

Lemma data_equal_spec y z : valid y -> valid z -> ldtype y <> DObj -> ldtype z <> DObj ->
  exists b, data_equal (lx y) (lx z) = Ok b /\ (llabel y = llabel z -> (b = true <-> alike y z)).
Proof.
  intros Hy Hz Hoy Hoz. pose proof (valid_wf _ Hy) as Wy. pose proof (valid_wf _ Hz) as Wz. pose proof (valid_typed _ Hy) as Ty. pose proof (valid_typed _ Hz) as Tz.
  assert (Hs : llabel y = llabel z -> nd_shape (lx y) = nd_shape (lx z)).
  { intros Hl. pose proof (valid_shape _ Hy) as H1. pose proof (valid_shape _ Hz) as H2. unfold lshape in *. congruence. }
  unfold ldtype, larr in *.
  assert (Hfloat : number_dtype (nd_dtype (lx y)) = true -> number_dtype (nd_dtype (lx z)) = true -> (nd_dtype (lx y) = DFloat \/ nd_dtype (lx z) = DFloat) ->
    llabel y = llabel z -> array_compare almost_elem (lx y) (lx z) = true <-> alike y z).
  { intros Hny Hnz Hf Hl. rewrite (array_compare_num _ (lx y) (lx z) Hny Hnz (typed_number _ _ Hny Ty) (typed_number _ _ Hnz Tz) Wy Wz). rewrite (cells_forall2 (agree almost_elem) y z Hy Hz Hl). unfold alike, ldtype. split.
    - intros [_ H]. split_and!; [done| |]. { split; intros E; rewrite E in *; done. }
      intros ls v w Hv Hw. destruct (decide _) as [_|]; [|done]. pose proof (valid_cell_typed _ _ _ Hy Hv) as H1. pose proof (valid_cell_typed _ _ _ Hz Hw) as H2.
      destruct (typed_one _ v Hny H1) as [m Hm]. destruct (typed_one _ w Hnz H2) as [n Hn].
      exists m, n. split_and!; [done..|]. by apply (agree_almost v w m n Hm Hn), (H ls).
    - intros (_ & _ & H). split; [by apply Hs|]. intros ls v w Hv Hw. specialize (H ls v w Hv Hw). destruct (decide _) as [_|]; [|done].
      destruct H as (m & n & Hm & Hn & H). by apply (agree_almost v w m n Hm Hn). }
  assert (Hexact : (nd_dtype (lx y) = DInt \/ nd_dtype (lx y) = DBool) -> (nd_dtype (lx z) = DInt \/ nd_dtype (lx z) = DBool) ->
    llabel y = llabel z -> array_compare eq_elem (lx y) (lx z) = true <-> alike y z).
  { intros Hiy Hiz Hl. assert (Hny : number_dtype (nd_dtype (lx y)) = true) by (by destruct Hiy as [-> | ->]).
    assert (Hnz : number_dtype (nd_dtype (lx z)) = true) by (by destruct Hiz as [-> | ->]).
    rewrite (array_compare_num _ (lx y) (lx z) Hny Hnz (typed_number _ _ Hny Ty) (typed_number _ _ Hnz Tz) Wy Wz). rewrite (cells_forall2 (agree eq_elem) y z Hy Hz Hl). unfold alike, ldtype. split.
    - intros [_ H]. split_and!; [done| |]. { split; intros E; rewrite E in *; done. }
      intros ls v w Hv Hw. destruct (decide _) as [[E|E]|_]; [rewrite E in Hiy; naive_solver|rewrite E in Hiz; naive_solver|].
      pose proof (valid_cell_typed _ _ _ Hy Hv) as H1. pose proof (valid_cell_typed _ _ _ Hz Hw) as H2.
      destruct (typed_one _ v Hny H1) as [m Hm]. destruct (typed_one _ w Hnz H2) as [n Hn].
      left. exists m. specialize (H ls v w Hv Hw). apply (agree_eq v w m n Hm Hn) in H as ->. split_and!; [done..|]. intros ->. by apply (int_not_nan _ v Hiy H1).
    - intros (_ & _ & H). split; [by apply Hs|]. intros ls v w Hv Hw. specialize (H ls v w Hv Hw). destruct (decide _) as [[E|E]|_]; [rewrite E in Hiy; naive_solver|rewrite E in Hiz; naive_solver|].
      destruct H as [(n & Hm & Hn & _)|(s & -> & ->)]; [by apply (agree_eq v w n n Hm Hn)|].
      pose proof (valid_cell_typed _ _ _ Hy Hv) as H1. unfold ldtype in H1. by destruct Hiy as [E|E]; rewrite E in H1. }
  assert (Hstr : nd_dtype (lx y) = DStr -> nd_dtype (lx z) = DStr -> llabel y = llabel z -> array_compare eq_elem (lx y) (lx z) = true <-> alike y z).
  { intros Hsy Hsz Hl. rewrite array_compare_other by (done || by rewrite Hsy). rewrite (cells_forall2 (fun v w => eq_elem v w = true) y z Hy Hz Hl). unfold alike, ldtype. rewrite Hsy, Hsz. split.
    - intros [_ H]. split_and!; [done..|]. intros ls v w Hv Hw. destruct (decide _) as [[|]|_]; [done..|].
      pose proof (valid_cell_typed _ _ _ Hy Hv) as H1. pose proof (valid_cell_typed _ _ _ Hz Hw) as H2. unfold ldtype in H1, H2. rewrite Hsy in H1. rewrite Hsz in H2.
      destruct v as [| | |s| |]; try done. destruct w as [| | |s'| |]; try done. specialize (H ls _ _ Hv Hw). cbn in H. apply bool_decide_eq_true in H as [= ->]. right. by exists s'.
    - intros (_ & _ & H). split; [by apply Hs|]. intros ls v w Hv Hw. specialize (H ls v w Hv Hw). destruct (decide _) as [[|]|_]; [done..|].
      pose proof (valid_cell_typed _ _ _ Hy Hv) as H1. unfold ldtype in H1. rewrite Hsy in H1.
      destruct H as [(n & Hm & Hn & _)|(s & -> & ->)]; [by destruct v|]. cbn. by apply bool_decide_eq_true. }
  assert (Hno : ~ (nd_dtype (lx y) = DStr <-> nd_dtype (lx z) = DStr) -> ~ alike y z).
  { intros Hn (_ & H & _). done. }
  unfold data_equal. destruct (nd_dtype (lx y)) eqn:Ey; try done; destruct (nd_dtype (lx z)) eqn:Ez; try done;
    eexists; (split; [reflexivity|]); intros Hl; try (by auto).
  all: split; [done|]; intros Ha; exfalso; (apply Hno; [intros [A B]; first [discriminate (A eq_refl)|discriminate (B eq_refl)]|done]).
Qed.

(** * The check *)
Lemma when_nil b x : when b x = [] <-> b = false.
Proof. by destruct b. Qed.
Lemma elem_of_when b x y : y ∈ when b x <-> b = true /\ y = x.
Proof. destruct b; cbn; rewrite ?elem_of_list_singleton, ?elem_of_nil; naive_solver. Qed.
Lemma larrys_equal_run h p q y z dtype original iscopy : read_larry h p = Some y -> read_larry h q = Some z -> valid y -> valid z ->
  ldtype y <> DObj -> ldtype z <> DObj ->
  exists b, (llabel y = llabel z -> (b = true <-> alike y z)) /\
  assert_larry_equal h (TLarry p) (TLarry q) dtype original iscopy =
    (refs ← match original with
            | None => Ok []
            | Some r => if iscopy then cs ← of_opt RuntimeError (assert_iscopy h p r); Ok (when (negb (bool_decide (cs = []))) HNotCopy)
                        else cs ← of_opt RuntimeError (assert_isview h p r); Ok (when (negb (bool_decide (cs = []))) HIsCopy)
            end;
     Ok (when (negb (bool_decide (llabel y = llabel z))) HLabel ++ when (negb b) HData ++
          when (dtype && negb (bool_decide (ldtype y = ldtype z))) HDtype ++ refs)).
Proof.
  intros Hp Hq Hy Hz Hoy Hoz. destruct (data_equal_spec y z Hy Hz Hoy Hoz) as (b & Hb & Hspec). exists b. split; [done|].
  cbn [assert_larry_equal]. rewrite Hp, Hq. cbn [of_opt mbind res_bind]. by rewrite Hb.
Qed.
Lemma alike_labels y z : alike y z -> llabel y = llabel z.
Proof. by intros [? _]. Qed.

Lemma larrys_equal h p q y z dtype iscopy : read_larry h p = Some y -> read_larry h q = Some z -> valid y -> valid z ->
  ldtype y <> DObj -> ldtype z <> DObj ->
  assert_larry_equal h (TLarry p) (TLarry q) dtype None iscopy = Ok [] <-> alike y z /\ (dtype = true -> ldtype y = ldtype z).
Proof.
  intros Hp Hq Hy Hz Hoy Hoz. destruct (larrys_equal_run h p q y z dtype None iscopy Hp Hq Hy Hz Hoy Hoz) as (b & Hb & ->).
  cbn [mbind res_bind]. split.
  - intros [= H]. apply app_eq_nil in H as [H1 H]. apply app_eq_nil in H as [H2 H]. apply app_eq_nil in H as [H3 _].
    rewrite when_nil in H1, H2, H3. apply negb_false_iff in H1, H2. apply bool_decide_eq_true in H1. split; [by apply Hb|].
    intros ->. cbn in H3. by apply negb_false_iff, bool_decide_eq_true in H3.
  - intros [Ha Hd]. pose proof (alike_labels _ _ Ha) as Hl. rewrite (bool_decide_eq_true_2 (llabel y = llabel z)) by done.
    rewrite (proj2 (Hb Hl) Ha). cbn. destruct dtype; [|done]. by rewrite bool_decide_eq_true_2 by auto.
Qed.
Lemma larrys_headings h p q y z dtype iscopy : read_larry h p = Some y -> read_larry h q = Some z -> valid y -> valid z ->
  ldtype y <> DObj -> ldtype z <> DObj ->
  exists hs, assert_larry_equal h (TLarry p) (TLarry q) dtype None iscopy = Ok hs /\
    (HLabel ∈ hs <-> llabel y <> llabel z) /\ (HDtype ∈ hs <-> dtype = true /\ ldtype y <> ldtype z) /\
    (llabel y = llabel z -> (HData ∈ hs <-> ~ alike y z)) /\ Forall (fun x => x = HLabel \/ x = HData \/ x = HDtype) hs.
Proof.
  intros Hp Hq Hy Hz Hoy Hoz. destruct (larrys_equal_run h p q y z dtype None iscopy Hp Hq Hy Hz Hoy Hoz) as (b & Hb & ->).
  eexists. split; [reflexivity|]. rewrite app_nil_r. split_and!.
  - rewrite !elem_of_app, !elem_of_when, negb_true_iff, bool_decide_eq_false. naive_solver.
  - rewrite !elem_of_app, !elem_of_when, andb_true_iff, !negb_true_iff, !bool_decide_eq_false. naive_solver.
  - intros Hl. rewrite !elem_of_app, !elem_of_when, !negb_true_iff. specialize (Hb Hl). rewrite <-Hb. destruct b; naive_solver.
  - apply Forall_forall. intros x. rewrite !elem_of_app, !elem_of_when. naive_solver.
Qed.
Lemma larrys_original h p q r y z dtype iscopy : read_larry h p = Some y -> read_larry h q = Some z -> valid y -> valid z ->
  ldtype y <> DObj -> ldtype z <> DObj ->
  assert_larry_equal h (TLarry p) (TLarry q) dtype (Some r) iscopy = Ok [] <->
  assert_larry_equal h (TLarry p) (TLarry q) dtype None iscopy = Ok [] /\
  (if iscopy then assert_iscopy h p r else assert_isview h p r) = Some [].
Proof.
  intros Hp Hq Hy Hz Hoy Hoz. destruct (data_equal_spec y z Hy Hz Hoy Hoz) as (b & Hb & _).
  cbn [assert_larry_equal]. rewrite Hp, Hq. cbn [of_opt mbind res_bind]. rewrite Hb. cbn [mbind res_bind]. rewrite app_nil_r.
  destruct iscopy; destruct (_ h p r) as [cs|]; cbn [of_opt mbind res_bind]; try (by split; [done|intros [_ ?]]).
  all: set (l := when _ _ ++ _); rewrite !app_assoc; destruct (bool_decide (cs = [])) eqn:E; cbn [negb when].
  all: try apply bool_decide_eq_true in E; try apply bool_decide_eq_false in E; unfold l; rewrite ?app_nil_r, ?app_assoc.
  all: split; [|naive_solver].
  all: try (by intros ->; subst).
  all: try (by intros H; split; [done|congruence]).
  all: intros [= H]; by apply app_eq_nil in H as [_ ?].
Qed.

Lemma num_of_Z_fin z : num_of_Z z = Fin (Qc_of_Z z).
Proof. done. Qed.
Lemma near_refl t n : (0 < t)%Qc -> near t n n.
Proof. intros Ht. destruct n as [q| | |]; try done. cbn. replace (q - q)%Qc with 0%Qc by ring. done. Qed.
Lemma near_sym t a b : near t a b -> near t b a.
Proof. destruct a, b; cbn; try done; [by intros []|..]. Qed.
Lemma alike_refl y : valid y -> ldtype y <> DObj -> alike y y.
Proof.
  intros Hy Ho. split_and!; [done..|]. intros ls v w Hv Hw. assert (w = v) as -> by congruence. pose proof (valid_cell_typed _ _ _ Hy Hv) as Ht.
  destruct (decide _) as [Hf|Hf].
  - assert (E : ldtype y = DFloat) by tauto. rewrite E in Ht. destruct v as [n| | | | |]; try done. exists n, n. split_and!; [done..|]. by apply near_refl.
  - destruct (ldtype y); try done; [naive_solver|..]; destruct v as [|z|b|s| |]; try done; [left..|right]; eauto.
Qed.
Lemma alike_sym y z : alike y z -> alike z y.
Proof.
  intros (H1 & H2 & H3). split_and!; [done..|]. intros ls v w Hv Hw. specialize (H3 ls w v Hw Hv). repeat destruct (decide _); try tauto.
  - destruct H3 as (m & n & Hm & Hn & H). exists n, m. split_and!; [done..|by apply near_sym].
  - destruct H3 as [(k & ? & ? & ?)|(s & ? & ?)]; [left|right]; eauto 6.
Qed.
Lemma alike_exact y z : valid y -> valid z -> alike y z -> ldtype y = ldtype z -> ldtype y <> DObj -> ldtype y <> DFloat -> y = z.
Proof.
  intros Hy Hz (Hl & _ & H) Hd Ho Hf. apply larry_ext; [done..|]. intros ls Hg.
  apply (valid_cell_grid y ls Hy) in Hg as Hg'. destruct Hg' as [v Hv]. rewrite Hl in Hg. apply (valid_cell_grid z ls Hz) in Hg as [w Hw]. rewrite Hv, Hw. f_equal.
  specialize (H ls v w Hv Hw). destruct (decide _) as [[|]|_]; [done|congruence|]. pose proof (valid_cell_typed _ _ _ Hy Hv) as T1. pose proof (valid_cell_typed _ _ _ Hz Hw) as T2.
  rewrite <-Hd in T2. destruct H as [(n & H1 & H2 & _)|(s & -> & ->)]; [|done].
  destruct (ldtype y); try done; destruct v as [|z1|b1| | |]; try done; destruct w as [|z2|b2| | |]; try done; cbn in H1, H2; rewrite <-H2 in H1.
  - f_equal. injection H1 as H1. by apply num_of_Z_inj; unfold num_of_Z; rewrite H1.
  - f_equal. by destruct b1, b2.
Qed.

(** Calls that do not return views: a correct result passes. *)
Lemma calls_equal h ps c h' rs a y d r x : in_place c = None -> may_write c = false -> may_share c = false ->
  Forall (fun p => exists y, read_larry h p = Some y /\ valid y) ps ->
  hexec ps c h = (h', Ok rs) -> HLarry a ∈ rs -> read_larry h' a = Some y -> valid y -> ldtype y <> DObj -> read_larry h' d = Some y ->
  read_larry h r = Some x ->
  assert_larry_equal h' (TLarry a) (TLarry d) true (Some r) true = Ok [].
Proof.
  intros Hi Hw Hs Hps He Ha Hra Hv Ho Hd Hr. apply (larrys_original h' a d r y y true true); [done..|]. split.
  - apply (larrys_equal h' a d y y true true); [done..|]. split; [by apply alike_refl|done].
  - by destruct (calls_iscopy h ps c h' rs a y r x Hi Hw Hs Hps He Ha Hra Hr) as [? _].
Qed.

(** Scalars. *)
Lemma scalars_equal h n v n' w dtype original iscopy : scalar_type v <> DObj -> scalar_type w <> DObj -> scalar_type v <> DStr -> scalar_type w <> DStr ->
  exists a b, to_num v = Some a /\ to_num w = Some b /\
  (assert_larry_equal h (TScalar n v) (TScalar n' w) dtype original iscopy = Ok [] <->
   near tol_scalar a b /\ (dtype = true -> n = n' /\ scalar_type v = scalar_type w)).
Proof.
  intros H1 H2 H3 H4.
  assert (exists a, to_num v = Some a) as [a Ha] by (destruct v; try done; cbn; eauto).
  assert (exists b, to_num w = Some b) as [b Hb] by (destruct w; try done; cbn; eauto).
  exists a, b. split_and!; [done..|]. cbn [assert_larry_equal].
  assert (Hsc : np_isscalar (TScalar n v) && np_isscalar (TScalar n' w) = true) by (by destruct v, w).
  rewrite Hsc.
  assert (Hok : exists ok, (if scalar_equal v w then Ok true else scalar_almost v w) = Ok ok /\ (ok = true <-> near tol_scalar a b)).
  { unfold scalar_equal. rewrite Ha, Hb. destruct a as [p| | |], b as [q| | |];
      try (unfold scalar_almost; rewrite ?Ha, ?Hb; first [exists true; split; [reflexivity|by split] | exists false; split; [reflexivity|by split]]).
    cbn [num_eqb]. destruct (bool_decide (Fin p = Fin q)) eqn:E.
    - apply bool_decide_eq_true in E as [= ->]. exists true. split; [done|]. split; [intros _; by apply near_refl|done].
    - by apply scalar_almost_fin. }
  destruct Hok as (ok & -> & Hok). cbn [mbind res_bind]. rewrite <-Hok. split.
  - intros [= H]. apply app_eq_nil in H as [E1 E2]. rewrite when_nil in E1, E2. apply negb_false_iff in E1. split; [done|].
    intros ->. cbn in E2. by apply negb_false_iff, bool_decide_eq_true in E2.
  - intros [-> Hd]. cbn. destruct dtype; [|done]. by rewrite bool_decide_eq_true_2 by auto.
Qed.
Lemma scalar_type_kind v w a b : to_num v = Some a -> to_num w = Some b ->
  scalar_type v <> DObj /\ scalar_type v <> DStr /\
  (scalar_type v = scalar_type w <-> exists dt, dt <> DObj /\ has_dtype dt v = true /\ has_dtype dt w = true).
Proof.
  intros Hv Hw. split_and!; [by destruct v|by destruct v|]. split.
  - intros H. exists (scalar_type v). split; [by destruct v|]. by destruct v, w.
  - intros (dt & Hd & H1 & H2). by destruct dt, v, w.
Qed.
Lemma numbers_equal h n v n' w a b dtype original iscopy : to_num v = Some a -> to_num w = Some b ->
  (assert_larry_equal h (TScalar n v) (TScalar n' w) dtype original iscopy = Ok [] <->
   near tol_scalar a b /\ (dtype = true -> n = n' /\ exists dt, dt <> DObj /\ has_dtype dt v = true /\ has_dtype dt w = true)).
Proof.
  intros Hv Hw. destruct (scalar_type_kind v w a b Hv Hw) as (H1 & H2 & H3). destruct (scalar_type_kind w v b a Hw Hv) as (H4 & H5 & _).
  destruct (scalars_equal h n v n' w dtype original iscopy H1 H4 H2 H5) as (a' & b' & Ha & Hb & H). assert (a' = a) as -> by congruence. assert (b' = b) as -> by congruence.
  by rewrite H, H3.
Qed.
