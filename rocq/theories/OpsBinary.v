(** Facts about binaryop and the functions built on it (la/flarry.py). *)
From Verif Require Export OpsMore AlignMore.

(** ** Skipped axes *)
Lemma align_step_label y1 y2 cast js st k st' :
  align_step y1 y2 cast js st k = Ok st' ->
  exists o, al_label st' = al_label st ++ [o] /\ (o = None -> js !! k = Some JSkip).
Proof.
  destruct st as [x1 m1 v1 x2 m2 v2 label]. unfold align_step. cbn [al_label]. intros H.
  apply bind_ok in H as (l1 & _ & H). apply bind_ok in H as (l2 & _ & H). apply bind_ok in H as (j & Hj & H).
  assert (Hj' : js !! k = Some j) by (destruct (js !! k); by simplify_eq/=).
  destruct j; try done; try (destruct (decide (l1 = l2)); [injection H as <-; eexists; by split|]).
  - repeat (apply bind_ok in H as (? & _ & H)). injection H as <-. eexists; by split.
  - apply bind_ok in H as (u & _ & H). destruct (listmap_fill l1 u 0), (listmap_fill l2 u 0).
    repeat (apply bind_ok in H as (? & _ & H)). injection H as <-. eexists; by split.
  - apply bind_ok in H as (? & _ & H). injection H as <-. eexists; by split.
  - apply bind_ok in H as (? & _ & H). injection H as <-. eexists; by split.
  - injection H as <-. eexists; by split.
Qed.
Lemma align_raw_label y1 y2 j cast st js :
  align_raw y1 y2 j cast = Ok st -> joins_are (lndim y2) j js ->
  forall i, al_label st !! i = Some None -> js !! i = Some JSkip.
Proof.
  unfold align_raw. destruct (decide _); [done|]. rewrite bind_ok. intros (js' & Hjs & HF) Hj.
  assert (js' = js) as ->.
  { destruct j as [j|l|]; simpl in *; [congruence| |done]. destruct (decide (length l <> lndim y2)); [done|]. naive_solver. }
  assert (Hinv : length (al_label st) = lndim y2 /\ forall i, al_label st !! i = Some None -> js !! i = Some JSkip); [|tauto].
  eapply (foldM_seq_inv (fun k st => length (al_label st) = k /\ forall i, al_label st !! i = Some None -> js !! i = Some JSkip)
            _ (AlignSt (lx y1) None true (lx y2) None true [])); [done| |exact HF].
  intros k s s' _ [Hlen Hi] Hs. apply align_step_label in Hs as (o & -> & Ho). rewrite app_length, Hlen. simpl.
  split; [lia|]. intros i Hl. apply lookup_app_Some in Hl as [Hl|[Hge Hl]]; [by apply Hi|].
  apply list_lookup_singleton_Some in Hl as [Hz ->]. assert (i = k) as -> by lia. by apply Ho.
Qed.

(** The aligned arrays, when no axis is skipped: two larrys with equal labels. *)
Lemma align_raw_joined y1 y2 j cast st js :
  valid y1 -> valid y2 -> align_raw y1 y2 j cast = Ok st -> joins_are (lndim y2) j js -> JSkip ∉ js ->
  exists z1 z2 L, al_x1 st = lx z1 /\ al_x2 st = lx z2 /\ llabel z1 = L /\ llabel z2 = L /\ al_label st = Some <$> L /\
  lndim y1 = lndim y2 /\ realigned y1 z1 /\ realigned y2 z2 /\ length L = length (llabel y1) /\
  (forall i l1 l2 r, llabel y1 !! i = Some l1 -> llabel y2 !! i = Some l2 -> L !! i = Some r ->
     exists ji, js !! i = Some ji /\ join_label ji l1 l2 r r) /\
  (cast = false -> ldtype z1 = ldtype y1 /\ ldtype z2 = ldtype y2) /\
  (no_new_label y1 z1 -> ldtype z1 = ldtype y1) /\ (no_new_label y2 z2 -> ldtype z2 = ldtype y2).
Proof.
  intros H1 H2 Hst Hj Hskip. pose proof (align_raw_label _ _ _ _ _ _ Hst Hj) as Hnone.
  apply align_raw_inv in Hst as (Hnd & js' & Hjs & w1 & w2 & Hx1 & Hx2 & Hal & _ & _ & HC & Hk1 & Hk2 & _ & _ & Hlen & Hlab); [|done..].
  assert (js' = js) as -> by (destruct j; simpl in *; naive_solver).
  pose proof Hal as (Hr1 & Hr2 & Hl1 & Hl2 & Hlt & _).
  assert (HS : forall i o, al_label st !! i = Some o -> exists r, o = Some r /\ llabel w1 !! i = Some r /\ llabel w2 !! i = Some r).
  { intros i [r|] Ho; [specialize (Hlab _ _ Ho); eauto|]. exfalso. apply Hskip. eapply elem_of_list_lookup_2. by eapply Hnone. }
  assert (Hw1 : length (llabel w1) = lndim y2) by (rewrite Hl1, valid_ndim by done; lia).
  assert (Hw2 : length (llabel w2) = lndim y2) by (rewrite Hl2, valid_ndim by done; lia).
  assert (E1 : al_label st = Some <$> llabel w1).
  { apply list_eq. intros i. rewrite list_lookup_fmap. destruct (al_label st !! i) as [o|] eqn:Ho.
    - destruct (HS _ _ Ho) as (r & -> & -> & _). done.
    - apply lookup_ge_None in Ho. by rewrite lookup_ge_None_2 by lia. }
  assert (E2 : llabel w2 = llabel w1).
  { apply list_eq. intros i. destruct (al_label st !! i) as [o|] eqn:Ho.
    - destruct (HS _ _ Ho) as (r & -> & -> & ->). done.
    - apply lookup_ge_None in Ho. by rewrite !lookup_ge_None_2 by lia. }
  exists w1, w2, (llabel w1). split_and!; try done.
  intros i l1 l2 r Ha Hb Hr. eapply Hlt; try done; [|by rewrite E2]. rewrite <-valid_ndim by done. by eapply lookup_lt_Some.
Qed.

(** ** Filling *)
Lemma any_false (m : arr bool) idx b :
  arr_wf m -> existsb id (data m) = false -> aget m idx = Some b -> b = false.
Proof.
  intros Hwf He Hg. destruct b; [|done]. exfalso. assert (Hin : true ∈ data m) by (apply elem_of_data; eauto).
  apply not_true_iff_false in He. apply He. apply existsb_exists. exists true. split; [by apply elem_of_list_In|done].
Qed.
Lemma store_marker dt v r : marker dt <> None -> store dt v = Ok r -> r = cast_to dt v /\ has_dtype dt r = true.
Proof. destruct dt; simpl; try done; intros _; destruct v; simpl; intros [= <-]; done. Qed.
Lemma put_scalar_spec x mask v x' :
  nda_wf x -> arr_wf mask -> shape mask = nd_shape x ->
  (forall idx, aget mask idx = Some true -> marker (nd_dtype x) <> None) ->
  put_scalar x mask v = Ok x' ->
  nda_wf x' /\ nd_shape x' = nd_shape x /\ nd_dtype x' = nd_dtype x /\
  forall idx, aget (nd_arr x') idx = (m ← aget mask idx; u ← aget (nd_arr x) idx;
     Some (if m : bool then cast_to (nd_dtype x) v else u)).
Proof.
  intros Hx Hm Hs Hmk. unfold put_scalar. destruct (existsb id (data mask)) eqn:E.
  - rewrite bind_ok. intros (r & Hr & [= <-]). cbn [nd_dtype nd_arr].
    assert (Hne : marker (nd_dtype x) <> None).
    { apply existsb_exists in E as (b & Hb%elem_of_list_In & Hbt). apply elem_of_data in Hb as [idx Hidx]; [|done].
      destruct b; [|done]. by eapply Hmk. }
    destruct (store_marker _ _ _ Hne Hr) as [-> Ht].
    assert (Hget : forall idx, aget (azip (fun (m : bool) u => if m then cast_to (nd_dtype x) v else u) mask (nd_arr x)) idx
      = (m ← aget mask idx; u ← aget (nd_arr x) idx; Some (if m : bool then cast_to (nd_dtype x) v else u))).
    { intros idx. by apply get_azip. }
    split_and!; [|exact Hs|done|exact Hget]. apply nda_wf_get.
    + apply azip_wf; [done|apply Hx|done].
    + intros idx w. cbn [nd_arr nd_dtype]. rewrite Hget. destruct (aget mask idx) as [m|]; [|done].
      destruct (aget (nd_arr x) idx) as [u|] eqn:Hu; [|done]. simpl. intros [= <-]. destruct m; [done|]. by eapply nda_wf_typed.
  - intros [= <-]. split_and!; try done. intros idx. destruct (aget mask idx) as [m|] eqn:Em; simpl.
    + rewrite (any_false _ _ _ Hm E Em). by destruct (aget (nd_arr x) idx).
    + destruct (aget (nd_arr x) idx) as [u|] eqn:Hu; [|done]. exfalso. apply mk_is_Some in Hu.
      apply get_is_Some in Hu; [|apply Hx]. change (shape (nd_arr x)) with (nd_shape x) in Hu. rewrite <-Hs in Hu.
      apply get_is_Some in Hu; [|done]. rewrite Em in Hu. by destruct Hu.
Qed.
Lemma put_scalar_ok x mask v :
  existsb id (data mask) = false \/ (exists r, store (nd_dtype x) v = Ok r) -> exists x', put_scalar x mask v = Ok x'.
Proof. unfold put_scalar. destruct (existsb _ _); [intros [|[r ->]]; [done|]; simpl; eauto|eauto]. Qed.

Definition fill_step (m : option val) (mask : arr bool) (x : nda) : res nda :=
  match m with None => Ok x | Some v => put_scalar x mask v end.
Lemma fill_two y1 y2 (m1 m2 : option val) x w :
  valid y1 -> valid y2 -> llabel y2 = llabel y1 ->
  fill_step m1 (azip (fun a b => a && negb b) (ismissing (lx y1)) (ismissing (lx y2))) (lx y1) = Ok x ->
  fill_step m2 (azip andb (ismissing (lx y1)) (ismissing (lx y2))) x = Ok w ->
  valid (Larry w (llabel y1)) /\ nd_dtype w = ldtype y1 /\
  forall ls, in_grid (llabel y1) ls -> cell (Larry w (llabel y1)) ls = filled y1 y2 m1 m2 ls.
Proof.
  intros H1 H2 HL Hx Hw.
  set (miss := fun (y : larry) (u : val) => bool_decide (marker (ldtype y) = Some u)).
  assert (Hs : nd_shape (lx y2) = nd_shape (lx y1)).
  { change (lshape y2 = lshape y1). rewrite <-!valid_shape by done. by rewrite HL. }
  assert (Hmg : forall y ix, valid y -> aget (ismissing (lx y)) ix = miss y <$> aget (larr y) ix).
  { intros y ix Hy. apply ismissing_get, Hy. }
  assert (Hms : shape (ismissing (lx y1)) = shape (ismissing (lx y2))) by (rewrite !ismissing_shape; done).
  assert (Wa : forall f : bool -> bool -> bool, arr_wf (azip f (ismissing (lx y1)) (ismissing (lx y2)))).
  { intros f. apply azip_wf; [apply ismissing_wf, H1|apply ismissing_wf, H2|done]. }
  assert (Mx : forall (f : bool -> bool -> bool), (forall b, f false b = false) -> forall idx,
     aget (azip f (ismissing (lx y1)) (ismissing (lx y2))) idx = Some true -> marker (ldtype y1) <> None).
  { intros f Hf idx. rewrite get_azip, (Hmg y1), (Hmg y2) by done. destruct (aget (larr y1) idx) as [u1|]; [|done].
    destruct (aget (larr y2) idx) as [u2|]; [|done]. simpl. unfold miss. case_bool_decide as Hb; [by rewrite Hb|]. by rewrite Hf. }
  assert (X : nda_wf x /\ nd_shape x = nd_shape (lx y1) /\ nd_dtype x = ldtype y1 /\
    forall idx, in_range (lshape y1) idx -> exists u1 u2, aget (larr y1) idx = Some u1 /\ aget (larr y2) idx = Some u2 /\
      aget (nd_arr x) idx = Some (if miss y1 u1 && negb (miss y2 u2) then from_option (cast_to (ldtype y1)) u1 m1 else u1)).
  { assert (HG : forall idx, in_range (lshape y1) idx -> exists u1 u2, aget (larr y1) idx = Some u1 /\ aget (larr y2) idx = Some u2).
    { intros idx Hr. destruct (wf_get_Some (lx y1) idx) as [u1 [Hu1 _]]; [apply H1|done|].
      destruct (wf_get_Some (lx y2) idx) as [u2 [Hu2 _]]; [apply H2|by rewrite Hs|eauto]. }
    destruct m1 as [v|]; simpl in Hx.
    - apply put_scalar_spec in Hx as (Ha & Hb & Hc & Hg); [|apply H1|apply Wa|apply ismissing_shape|apply Mx; done].
      split_and!; try done. intros idx Hr. destruct (HG idx Hr) as (u1 & u2 & Hu1 & Hu2). exists u1, u2. split_and!; try done.
      rewrite Hg, get_azip, (Hmg y1), (Hmg y2), Hu1, Hu2 by done. simpl. change (nd_arr (lx y1)) with (larr y1). rewrite Hu1. done.
    - injection Hx as <-. split_and!; [apply H1|done|done|]. intros idx Hr. destruct (HG idx Hr) as (u1 & u2 & Hu1 & Hu2).
      exists u1, u2. split_and!; try done. simpl. change (nd_arr (lx y1)) with (larr y1). rewrite Hu1. by destruct (_ && _). }
  destruct X as (Xw & Xs & Xd & Xg).
  assert (W : nda_wf w /\ nd_shape w = nd_shape (lx y1) /\ nd_dtype w = ldtype y1 /\
    forall idx, in_range (lshape y1) idx -> exists u1 u2, aget (larr y1) idx = Some u1 /\ aget (larr y2) idx = Some u2 /\
      aget (nd_arr w) idx = Some (if miss y1 u1 then if miss y2 u2 then from_option (cast_to (ldtype y1)) u1 m2
        else from_option (cast_to (ldtype y1)) u1 m1 else u1)).
  { destruct m2 as [v|]; simpl in Hw.
    - apply put_scalar_spec in Hw as (Ha & Hb & Hc & Hg);
        [|done|apply Wa|by rewrite Xs; apply ismissing_shape|rewrite Xd; apply Mx; done].
      split_and!; try done; [congruence|congruence|]. intros idx Hr. destruct (Xg idx Hr) as (u1 & u2 & Hu1 & Hu2 & Hux).
      exists u1, u2. split_and!; try done. rewrite Hg, get_azip, (Hmg y1), (Hmg y2), Hu1, Hu2, Hux by done. simpl. rewrite Xd.
      by destruct (miss y1 u1), (miss y2 u2).
    - injection Hw as <-. split_and!; try done. intros idx Hr. destruct (Xg idx Hr) as (u1 & u2 & Hu1 & Hu2 & Hux).
      exists u1, u2. split_and!; try done. rewrite Hux. by destruct (miss y1 u1), (miss y2 u2). }
  destruct W as (Ww & Ws & Wd & Wg).
  assert (Vw : valid (Larry w (llabel y1))).
  { destruct H1 as (_ & Hne & Hsh & Hnd). split_and!; [done|done| |done]. unfold lshape in *. simpl. by rewrite Ws. }
  split_and!; [done|done|]. intros ls Hg. apply (valid_cell_grid _ _ Vw) in Hg as [u Hu]. rewrite Hu.
  assert (Nd := valid_nodup _ H1). apply cell_Some in Hu as (idx & Hl & Hgu); [|done]. simpl in Hl.
  destruct (Wg idx) as (u1 & u2 & Hu1 & Hu2 & Huw); [by eapply labels_in_range|].
  change (larr (Larry w (llabel y1))) with (nd_arr w) in Hgu. rewrite Hgu in Huw. rewrite Huw.
  unfold filled, data_at. assert (C1 : cell y1 ls = Some u1) by (by rewrite (cell_at y1 idx ls Nd Hl)).
  assert (C2 : cell y2 ls = Some u2) by (rewrite (cell_at y2 idx ls); [done|by rewrite HL|by rewrite HL]).
  rewrite C1, C2. simpl. unfold miss.
  destruct (decide (marker (ldtype y1) = Some u1)) as [D1|D1], (decide (marker (ldtype y2) = Some u2)) as [D2|D2];
    rewrite ?(bool_decide_eq_true_2 _ D1), ?(bool_decide_eq_true_2 _ D2), ?(bool_decide_eq_false_2 _ D1), ?(bool_decide_eq_false_2 _ D2).
  - by destruct m2.
  - by destruct m1.
  - done.
  - done.
Qed.

Lemma azip_andb_comm (a b : arr bool) : shape a = shape b -> azip andb a b = azip andb b a.
Proof.
  intros Hs. unfold azip. rewrite Hs. f_equal. rewrite <-zip_with_flip.
  apply zip_with_ext; [intros; apply andb_comm|done|done].
Qed.

(** The operands after aligning and filling. *)
Lemma binaryop_spec func y1 y2 j cast m1 m2 x labels js :
  valid y1 -> valid y2 -> binaryop func y1 y2 j cast m1 m2 = Ok (x, labels) ->
  joins_are (lndim y2) j js -> JSkip ∉ js ->
  exists z1 z2 w1 w2, lndim y1 = lndim y2 /\ realigned y1 z1 /\ realigned y2 z2 /\ llabel z2 = llabel z1 /\
  labels = Some <$> llabel z1 /\ length (llabel z1) = length (llabel y1) /\
  (forall i l1 l2 r, llabel y1 !! i = Some l1 -> llabel y2 !! i = Some l2 -> llabel z1 !! i = Some r ->
     exists ji, js !! i = Some ji /\ join_label ji l1 l2 r r) /\
  (cast = false -> ldtype z1 = ldtype y1 /\ ldtype z2 = ldtype y2) /\
  (no_new_label y1 z1 -> ldtype z1 = ldtype y1) /\ (no_new_label y2 z2 -> ldtype z2 = ldtype y2) /\
  valid w1 /\ valid w2 /\ llabel w1 = llabel z1 /\ llabel w2 = llabel z1 /\ ldtype w1 = ldtype z1 /\ ldtype w2 = ldtype z2 /\
  (forall ls, in_grid (llabel z1) ls -> cell w1 ls = filled z1 z2 m1 m2 ls /\ cell w2 ls = filled z2 z1 m1 m2 ls) /\
  func (lx w1) (lx w2) = Ok x.
Proof.
  intros H1 H2 H Hj Hskip. unfold binaryop in H. apply bind_ok in H as (st & Hst & H).
  destruct (align_raw_joined _ _ _ _ _ _ H1 H2 Hst Hj Hskip)
    as (z1 & z2 & L & E1 & E2 & L1 & L2 & EL & Hnd & R1 & R2 & Hlen & Hlt & HC & Hk1 & Hk2).
  rewrite E1, E2, EL in H. subst L. cbv zeta in H. destruct (decide _) in H; [done|].
  apply bind_ok in H as ([p1 p2] & Hp & H). apply bind_ok in H as ([q1 q2] & Hq & H). apply bind_ok in H as (x0 & Hf & [= -> <-]).
  cbn [fst snd] in *. assert (V1 := proj1 R1). assert (V2 := proj1 R2).
  assert (Hs : shape (ismissing (lx z1)) = shape (ismissing (lx z2))).
  { rewrite !ismissing_shape. change (lshape z1 = lshape z2). rewrite <-!valid_shape by done. by rewrite L2. }
  assert (P : fill_step m1 (azip (fun a b => a && negb b) (ismissing (lx z1)) (ismissing (lx z2))) (lx z1) = Ok p1 /\
    fill_step m1 (azip (fun a b => a && negb b) (ismissing (lx z2)) (ismissing (lx z1))) (lx z2) = Ok p2).
  { destruct m1; simpl in *; [|by injection Hp as <- <-].
    apply bind_ok in Hp as (a & Ha & Hp). apply bind_ok in Hp as (b & Hb & [= <- <-]). done. }
  assert (Q : fill_step m2 (azip andb (ismissing (lx z1)) (ismissing (lx z2))) p1 = Ok q1 /\
    fill_step m2 (azip andb (ismissing (lx z2)) (ismissing (lx z1))) p2 = Ok q2).
  { rewrite (azip_andb_comm (ismissing (lx z2))) by done. destruct m2; simpl in *; [|by injection Hq as <- <-].
    apply bind_ok in Hq as (a & Ha & Hq). apply bind_ok in Hq as (b & Hb & [= <- <-]). done. }
  destruct P as [P1 P2], Q as [Q1 Q2].
  destruct (fill_two z1 z2 m1 m2 p1 q1 V1 V2 L2 P1 Q1) as (W1 & D1 & C1).
  destruct (fill_two z2 z1 m1 m2 p2 q2 V2 V1 (eq_sym L2) P2 Q2) as (W2 & D2 & C2).
  exists z1, z2, (Larry q1 (llabel z1)), (Larry q2 (llabel z2)). split_and!; try done.
  intros ls Hg. split; [by apply C1|]. apply C2. by rewrite L2.
Qed.

Lemma fill_step_ok y m mask :
  arithmetic (nd_dtype y) -> fill_value m -> arr_wf mask ->
  (forall idx, aget mask idx = Some true -> marker (nd_dtype y) <> None) -> exists x, fill_step m mask y = Ok x.
Proof.
  intros Ha Hm Hw Hmask. destruct m as [v|]; simpl in *; [|eauto]. apply put_scalar_ok.
  destruct (existsb id (data mask)) eqn:E; [right|by left].
  apply existsb_exists in E as (b & Hb%elem_of_list_In & Hbt). destruct b; [|done].
  apply elem_of_data in Hb as [idx Hi]; [|done]. apply Hmask in Hi. destruct Hm as [n Hn].
  destruct Ha as [->|[E|E]]; [|by rewrite E in Hi..]. destruct v; try done; simpl; eauto.
Qed.
Lemma binaryop_arith op y1 y2 j cast m1 m2 x labels js :
  valid y1 -> valid y2 -> binaryop (np_arith op) y1 y2 j cast m1 m2 = Ok (x, labels) ->
  joins_are (lndim y2) j js -> JSkip ∉ js ->
  exists z1 z2 L, lndim y1 = lndim y2 /\ realigned y1 z1 /\ realigned y2 z2 /\ llabel z1 = L /\ llabel z2 = L /\
  labels = Some <$> L /\ length L = length (llabel y1) /\
  (forall i l1 l2 r, llabel y1 !! i = Some l1 -> llabel y2 !! i = Some l2 -> L !! i = Some r ->
     exists ji, js !! i = Some ji /\ join_label ji l1 l2 r r) /\
  (cast = false -> ldtype z1 = ldtype y1 /\ ldtype z2 = ldtype y2) /\
  (no_new_label y1 z1 -> ldtype z1 = ldtype y1) /\ (no_new_label y2 z2 -> ldtype z2 = ldtype y2) /\
  valid (Larry x L) /\ arith_result op (ldtype z1) (ldtype z2) (nd_dtype x) /\
  forall ls, in_grid L ls -> exists v1 v2 v,
    filled z1 z2 m1 m2 ls = Some v1 /\ filled z2 z1 m1 m2 ls = Some v2 /\
    cell (Larry x L) ls = Some v /\ arith_value op v1 v2 v.
Proof.
  intros H1 H2 H Hj Hskip.
  destruct (binaryop_spec _ _ _ _ _ _ _ _ _ _ H1 H2 H Hj Hskip)
    as (z1 & z2 & w1 & w2 & Hnd & R1 & R2 & L2 & EL & Hlen & Hlt & HC & Hk1 & Hk2 & V1 & V2 & LW1 & LW2 & D1 & D2 & C & Hf).
  destruct w1 as [x1 l1], w2 as [x2 l2]. simpl in LW1, LW2, Hf. subst l1 l2.
  destruct (pointwise_labelled _ _ _ x1 x2 (llabel z1) x (np_arith_pointwise op) V1 V2 Hf) as ((_ & _ & HD) & Hv & Hcell).
  change (nd_dtype x1) with (ldtype (Larry x1 (llabel z1))) in HD.
  change (nd_dtype x2) with (ldtype (Larry x2 (llabel z1))) in HD. rewrite D1, D2 in HD.
  exists z1, z2, (llabel z1). split_and!; try done.
  intros ls Hg. destruct (C ls Hg) as [C1 C2].
  destruct (proj2 (valid_cell_grid _ ls V1) Hg) as [v1 Hv1]. destruct (proj2 (valid_cell_grid _ ls V2) Hg) as [v2 Hv2].
  destruct (Hcell ls v1 v2 Hv1 Hv2) as (v & Hcv & dt & _ & _ & HR).
  exists v1, v2, v. split_and!; try done; congruence.
Qed.

Lemma realigned_arithmetic y z : realigned y z -> arithmetic (ldtype y) -> arithmetic (ldtype z).
Proof. intros (_ & Hd & _) Ha. destruct Hd as [->| ->]; [done|]. destruct Ha as [->|[->| ->]]; by left. Qed.
Lemma put_mask_marker z1 z2 (f : bool -> bool -> bool) (idx : list nat) :
  valid z1 -> valid z2 -> llabel z2 = llabel z1 -> (forall b, f false b = false) ->
  aget (azip f (ismissing (lx z1)) (ismissing (lx z2))) idx = Some true -> marker (ldtype z1) <> None.
Proof.
  intros V1 V2 L2 Hf. rewrite get_azip, !ismissing_get; [|apply V1|apply V2|].
  2:{ rewrite !ismissing_shape. change (lshape z1 = lshape z2). rewrite <-!valid_shape by done. by rewrite L2. }
  destruct (aget (nd_arr (lx z1)) idx) as [u1|]; [|done]. destruct (aget (nd_arr (lx z2)) idx) as [u2|]; [|done]. simpl.
  case_bool_decide as Hb; [intros _; change (ldtype z1) with (nd_dtype (lx z1)); by rewrite Hb|]. by rewrite Hf.
Qed.
Lemma put_scalar_keep x mask v x' : put_scalar x mask v = Ok x' -> nd_dtype x' = nd_dtype x.
Proof. unfold put_scalar. destruct (existsb _ _); [rewrite bind_ok; by intros (? & _ & [= <-])|by intros [= <-]]. Qed.
Lemma binaryop_arith_ok op y1 y2 j cast m1 m2 js :
  valid y1 -> valid y2 -> lndim y1 = lndim y2 -> joins_are (lndim y2) j js -> JSkip ∉ js ->
  axes_joinable cast y1 y2 js ->
  arithmetic (ldtype y1) -> arithmetic (ldtype y2) -> fill_value m1 -> fill_value m2 ->
  exists r, binaryop (np_arith op) y1 y2 j cast m1 m2 = Ok r.
Proof.
  intros H1 H2 Hnd Hj Hskip Hjoin A1 A2 F1 F2.
  destruct (align_raw_ex y1 y2 j cast js) as [st Hst]; try done.
  destruct (align_raw_joined _ _ _ _ _ _ H1 H2 Hst Hj Hskip)
    as (z1 & z2 & L & E1 & E2 & L1 & L2 & EL & _ & R1 & R2 & _). subst L.
  apply (realigned_arithmetic _ _ R1) in A1. apply (realigned_arithmetic _ _ R2) in A2.
  assert (V1 := proj1 R1). assert (V2 := proj1 R2).
  assert (Hs : lshape z1 = lshape z2) by (rewrite <-!valid_shape by done; by rewrite L2).
  assert (Hms : shape (ismissing (lx z1)) = shape (ismissing (lx z2))) by (by rewrite !ismissing_shape).
  assert (W : forall f : bool -> bool -> bool, arr_wf (azip f (ismissing (lx z1)) (ismissing (lx z2))) /\
     arr_wf (azip f (ismissing (lx z2)) (ismissing (lx z1)))).
  { intros f. split; apply azip_wf; try apply ismissing_wf; try apply V1; try apply V2; done. }
  destruct (fill_step_ok (lx z1) m1 (azip (fun a b => a && negb b) (ismissing (lx z1)) (ismissing (lx z2)))) as [p1 P1];
    [done|done|apply W|by intros idx; apply put_mask_marker|].
  destruct (fill_step_ok (lx z2) m1 (azip (fun a b => a && negb b) (ismissing (lx z2)) (ismissing (lx z1)))) as [p2 P2];
    [done|done|apply W|by intros idx; apply put_mask_marker|].
  assert (D1 : nd_dtype p1 = ldtype z1) by (destruct m1; simpl in P1; [by apply put_scalar_keep in P1|by injection P1 as <-]).
  assert (D2 : nd_dtype p2 = ldtype z2) by (destruct m1; simpl in P2; [by apply put_scalar_keep in P2|by injection P2 as <-]).
  destruct (fill_step_ok p1 m2 (azip andb (ismissing (lx z1)) (ismissing (lx z2)))) as [q1 Q1];
    [by rewrite D1|done|apply W|rewrite D1; by intros idx; apply put_mask_marker|].
  destruct (fill_step_ok p2 m2 (azip andb (ismissing (lx z2)) (ismissing (lx z1)))) as [q2 Q2];
    [by rewrite D2|done|apply W|rewrite D2; by intros idx; apply put_mask_marker|].
  destruct (fill_two z1 z2 m1 m2 p1 q1 V1 V2 L2 P1 Q1) as (W1 & E1' & _).
  destruct (fill_two z2 z1 m1 m2 p2 q2 V2 V1 (eq_sym L2) P2 Q2) as (W2 & E2' & _).
  destruct (np_arith_ok op q1 q2) as [r Hr]; [apply W1|apply W2| |by rewrite E1'|by rewrite E2'|].
  { assert (nd_shape q2 = nd_shape q1) as ->; [|apply fits_refl].
    change (lshape (Larry q2 (llabel z2)) = lshape (Larry q1 (llabel z1))). rewrite <-!valid_shape by done. simpl. by rewrite L2. }
  unfold binaryop. rewrite Hst. simpl. rewrite E1, E2, EL, decide_False.
  2:{ intros [_ Hne]. by apply Hne. }
  rewrite (azip_andb_comm (ismissing (lx z2))) in Q2 by done.
  destruct m1 as [v1|]; simpl in *.
  - rewrite P1. simpl. rewrite P2. simpl. destruct m2 as [v2|]; simpl in *.
    + rewrite Q1. simpl. rewrite Q2. simpl. rewrite Hr. simpl. eauto.
    + injection Q1 as <-. injection Q2 as <-. rewrite Hr. simpl. eauto.
  - injection P1 as <-. injection P2 as <-. destruct m2 as [v2|]; simpl in *.
    + rewrite Q1. simpl. rewrite Q2. simpl. rewrite Hr. simpl. eauto.
    + injection Q1 as <-. injection Q2 as <-. rewrite Hr. simpl. eauto.
Qed.

Lemma realigned_arithmetic_inv y z : realigned y z -> arithmetic (ldtype z) -> arithmetic (ldtype y).
Proof. intros (_ & Hd & _). unfold arithmetic. destruct (ldtype y); destruct Hd as [-> | ->]; simpl; tauto. Qed.
Lemma binaryop_arith_iff op y1 y2 j cast m1 m2 js :
  valid y1 -> valid y2 -> lndim y1 = lndim y2 -> joins_are (lndim y2) j js -> JSkip ∉ js -> fill_value m1 -> fill_value m2 ->
  (exists r, binaryop (np_arith op) y1 y2 j cast m1 m2 = Ok r) <->
  arithmetic (ldtype y1) /\ arithmetic (ldtype y2) /\
  (forall i ji l1 l2, js !! i = Some ji -> llabel y1 !! i = Some l1 -> llabel y2 !! i = Some l2 ->
     joinable ji l1 l2 /\ fillable cast (ldtype y1) ji l1 l2 /\ fillable cast (ldtype y2) (join_mirror ji) l2 l1).
Proof.
  intros H1 H2 Hnd Hj Hskip F1 F2. split; [|intros (? & ? & ?); by eapply binaryop_arith_ok].
  intros [[x labels] Hr].
  destruct (binaryop_spec _ _ _ _ _ _ _ _ _ _ H1 H2 Hr Hj Hskip)
    as (z1 & z2 & w1 & w2 & _ & R1 & R2 & _ & _ & _ & _ & _ & _ & _ & V1 & V2 & _ & _ & D1 & D2 & _ & Hf).
  assert (HA : arithmetic (ldtype w1) /\ arithmetic (ldtype w2)).
  { unfold np_arith in Hf. apply bind_ok in Hf as (dt & Hdt & _). unfold ldtype, arithmetic.
    destruct (nd_dtype (lx w1)), (nd_dtype (lx w2)); simpl in Hdt; try discriminate Hdt; tauto. }
  rewrite D1, D2 in HA. destruct HA as [A1 A2]. split; [by eapply realigned_arithmetic_inv|]. split; [by eapply realigned_arithmetic_inv|].
  unfold binaryop in Hr. apply bind_ok in Hr as (st & Hst & _). by apply (align_raw_only y1 y2 j cast js st).
Qed.

(** ** The inner join without filling is the operator *)
Lemma op_align_same y1 y2 : valid y1 -> valid y2 -> llabel y1 = llabel y2 ->
  op_align y1 y2 = Ok (lx y1, lx y2, llabel y1).
Proof.
  intros H1 H2 HL. unfold op_align.
  assert (Hnd : lndim y1 = lndim y2) by (by rewrite <-!valid_ndim, HL).
  rewrite decide_False by tauto. rewrite <-HL.
  assert (G : forall k done, k <= lndim y1 -> foldM (op_align_step (llabel y1) (llabel y1)) (lx y1, lx y2, done) (seq (lndim y1 - k) k)
     = Ok (lx y1, lx y2, done ++ drop (lndim y1 - k) (llabel y1))).
  { induction k as [|k IH]; intros done Hk.
    - simpl. rewrite drop_ge; [by rewrite app_nil_r|]. rewrite <-valid_ndim by done. lia.
    - simpl. destruct (lookup_lt_is_Some_2 (llabel y1) (lndim y1 - S k)) as [l Hl]; [rewrite valid_ndim by done; lia|].
      rewrite Hl. simpl. rewrite decide_True by done. replace (S (lndim y1 - S k)) with (lndim y1 - k) by lia.
      rewrite IH by lia. rewrite <-app_assoc. simpl. rewrite (drop_S _ _ _ Hl). by replace (S (lndim y1 - S k)) with (lndim y1 - k) by lia. }
  specialize (G (lndim y1) [] (le_n _)). rewrite Nat.sub_diag in G. by rewrite G.
Qed.
Lemma binaryop_inner func y1 y2 x L :
  valid y1 -> valid y2 ->
  binaryop func y1 y2 (JOne JInner) true None None = Ok (x, Some <$> L) <->
  larry_binary func y1 (OpLarry y2) = Ok (Larry x L).
Proof.
  intros H1 H2. destruct (decide (lndim y1 = lndim y2)) as [Hnd|Hnd].
  - pose proof (op_align_sim y1 y2 Hnd) as HS. unfold binaryop. simpl.
    assert (HB : (p ← op_align y1 y2; x ← func p.1.1 p.1.2; Ok (x, Some <$> (p.2 : list (list lab)))) = Ok (x, Some <$> L) <->
      larry_binary func y1 (OpLarry y2) = Ok (Larry x L)).
    { simpl. destruct (decide (llabel y1 = llabel y2)) as [HL|HL].
      - rewrite op_align_same by done. simpl. destruct (func (lx y1) (lx y2)); simpl; [|done].
        split; [intros [= -> HLL]; apply (inj (fmap Some)) in HLL; by rewrite HLL|intros [= -> ->]; done].
      - destruct (op_align y1 y2) as [[[a b] l]|]; simpl; [|done]. destruct (func a b); simpl; [|done].
        split; [intros [= -> HLL]; apply (inj (fmap Some)) in HLL; by rewrite HLL|intros [= -> ->]; done]. }
    rewrite <-HB. destruct (op_align y1 y2) as [[[a b] l]|], (align_raw y1 y2 (JOne JInner) true) as [st|]; simpl in HS; try done.
    destruct HS as (v1 & v2 & ->). simpl. destruct (func a b); done.
  - split.
    + unfold binaryop, align_raw. by rewrite decide_True.
    + simpl. rewrite decide_False; [|intros HL; apply Hnd; by rewrite <-!valid_ndim, HL].
      rewrite op_align_ndim by done. done.
Qed.
