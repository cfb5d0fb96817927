(** C103: larrys indexed by positions and slices. *)
From Verif Require Import StepsFacts IndexGet IndexFacts PropsIndex PropsLarry SpecFacts SpecIndex LarryMove LarryFacts RoadsFacts.
From Verif Require Import Larry Index.
From Verif Require Import SliceFacts.
From Verif Require Export SpecSlice.

Lemma py_slice_res {A} s (l : list A) : (exists l', py_slice s l = Ok l') \/ py_slice s l = Err ValueError.
Proof.
  destruct (py_slice s l) as [l'|e] eqn:E; [eauto|]. right. 
  unfold py_slice in E. destruct (slice_positions s (length l)) as [ps|] eqn:Ep; [|]. 2:{ injection E as <-. unfold slice_positions in Ep. repeat case_match; congruence. }
  exfalso. cbn [mbind res_bind] in E.
  destruct (mapM (l !!.) ps) as [k|] eqn:Em; [done|].
  apply mapM_None in Em. apply Exists_exists in Em as (i & Hi & Hn). apply lookup_ge_None in Hn.
  destruct (slice_positions_iff s (length l) ps) as [H _]. specialize (H Ep).
  assert (i < length l); [|lia]. unfold slice_takes in H. destruct (s_step s); naive_solver.
Qed.
Theorem slice_total s n : s_step s <> Some 0%Z -> exists ps, slice_takes s n ps.
Proof.
  intros Hs. destruct (py_slice_res s (replicate n tt)) as [[l' H]|H].
  - apply py_slice_takes in H as (ps & H & _). rewrite replicate_length in H. eauto.
  - by apply py_slice_error in H.
Qed.
Lemma slice_takes_nodup s n ps : slice_takes s n ps -> NoDup ps.
Proof.
  assert (H1 : forall R : relation nat, (forall i, ~ R i i) -> StronglySorted R ps -> NoDup ps).
  { intros R HR H. induction H as [|i l H IH Hf]; constructor; [|done]. intros Hi. rewrite Forall_forall in Hf. by apply (HR i), Hf. }
  unfold slice_takes. destruct (s_step s) as [k|].
  - intros [(_ & H & _)|(_ & H & _)]; revert H; apply H1; intros i ?; lia.
  - intros [H _]. revert H; apply H1; intros i ?; lia.
Qed.
Lemma slice_takes_lt s n ps i : slice_takes s n ps -> i ∈ ps -> i < n.
Proof. unfold slice_takes. destruct (s_step s); unfold upward, downward; naive_solver. Qed.
Lemma lookups_exist {A} (l : list A) ps : (forall i, i ∈ ps -> i < length l) -> exists k, Forall2 (fun i x => l !! i = Some x) ps k.
Proof.
  induction ps as [|i ps IH]; intros H; [by exists []|].
  destruct IH as [k Hk]; [intros j Hj; apply H; by right|].
  destruct (lookup_lt_is_Some_2 l i) as [x Hx]; [apply H; left|]. exists (x :: k). by constructor.
Qed.
Lemma lookups_nodup {A} (l : list A) ps k : Forall2 (fun i x => l !! i = Some x) ps k -> NoDup l -> NoDup ps -> NoDup k.
Proof.
  intros H HN. induction H as [|i x ps k Hi H IH]; intros Hp; [constructor|]. apply NoDup_cons in Hp as [Hn Hp]. constructor; [|by apply IH].
  intros Hx. apply elem_of_list_lookup in Hx as [j Hj]. destruct (Forall2_lookup_r _ _ _ _ _ H Hj) as (i' & Hi' & Hl).
  apply Hn. rewrite (NoDup_lookup _ _ _ _ HN Hi Hl). by eapply elem_of_list_lookup_2.
Qed.

Theorem selects_int l z x : selects l (IInt z) (At x) <-> exists i, means (length l) z i /\ l !! i = Some x.
Proof. apply py_get_means. Qed.
Theorem selects_slice l s l' : selects l (ISlice s) (Among l') <->
  exists ps, slice_takes s (length l) ps /\ Forall2 (fun i x => l !! i = Some x) ps l'.
Proof. apply py_slice_takes. Qed.

Theorem slice_axis y ax l s ps : valid y -> llabel y !! ax = Some l -> slice_takes s (length l) ps ->
  exists z l', larry_getitem y (at_axis ax (ISlice s)) = Ok (GLar z) /\ Forall2 (fun i x => l !! i = Some x) ps l' /\
    valid z /\ ldtype z = ldtype y /\ llabel z = <[ax := l']> (llabel y) /\ forall ls, in_grid (llabel z) ls -> cell z ls = cell y ls.
Proof.
  intros Hv Hl Hs. destruct (lookups_exist l ps) as [l' Hl']; [intros i; by apply (slice_takes_lt s)|].
  assert (NoDup l') as HN. { eapply lookups_nodup; [done| |by eapply slice_takes_nodup]. apply (Forall_lookup_1 _ _ _ _ (nodup_labels y Hv) Hl). }
  destruct (at_axis_get y ax l (ISlice s) (Among l') Hv Hl) as (g & Hg & Hp); [done|by apply selects_slice; eauto| |].
  { rewrite (sel_labels_in _ _ l) by done. apply nodup_insert; [by apply nodup_labels|done]. }
  destruct g as [w|v|b]; [|exfalso|done].
  - exists w, l'. destruct Hp as (Vw & Dw & Lw & Cw). rewrite (sel_labels_in _ _ l) in Lw by done. split_and!; try done.
    intros ls Hin. destruct (Cw ls Hin) as (f & Hf & ->). rewrite (sel_at_among _ _ l) in Hf by done.
    rewrite sel_full_among in Hf; [by injection Hf as <-|]. rewrite <-Lw. by apply in_grid_length.
  - destruct Hp as [Hp _]. rewrite (sel_labels_in _ _ l) in Hp by done. apply (f_equal length) in Hp. rewrite insert_length in Hp.
    pose proof (lookup_lt_Some _ _ _ Hl). simpl in Hp. lia.
Qed.
Theorem int_axis y ax l z i x : valid y -> llabel y !! ax = Some l -> 1 < lndim y -> means (length l) z i -> l !! i = Some x ->
  exists w, larry_getitem y (at_axis ax (IInt z)) = Ok (GLar w) /\
    valid w /\ ldtype w = ldtype y /\ llabel w = delete ax (llabel y) /\
    forall ls, in_grid (llabel w) ls -> cell w ls = cell y (take ax ls ++ x :: drop ax ls).
Proof.
  intros Hv Hl Hn Hm Hx. assert (HN : Forall NoDup (delete ax (llabel y))).
  { apply Forall_delete. by apply nodup_labels. }
  destruct (at_axis_get y ax l (IInt z) (At x) Hv Hl) as (g & Hg & Hp); [done|apply selects_int; eauto| |].
  { by rewrite (sel_labels_at _ _ l) by done. }
  pose proof (lookup_lt_Some _ _ _ Hl) as Hlt.
  assert (Hlen : length (delete ax (llabel y)) = pred (length (llabel y))) by (rewrite length_delete by eauto; lia).
  pose proof (valid_ndim y Hv) as Hnd.
  destruct g as [w|v|b]; [|exfalso|done].
  - exists w. destruct Hp as (Vw & Dw & Lw & Cw). rewrite (sel_labels_at _ _ l) in Lw by done. split_and!; try done.
    intros ls Hin. destruct (Cw ls Hin) as (f & Hf & ->). rewrite (sel_full_at _ _ l) in Hf; [by injection Hf as <-|done|].
    rewrite (in_grid_length _ _ Hin), Lw. unfold remove_at. by rewrite Hlen.
  - destruct Hp as [Hp _]. rewrite (sel_labels_at _ _ l) in Hp by done. unfold remove_at in Hp. rewrite Hp in Hlen. simpl in Hlen. lia.
Qed.
Theorem int_scalar y l z i x : valid y -> llabel y = [l] -> means (length l) z i -> l !! i = Some x ->
  exists v, larry_getitem y (XInt z) = Ok (GVal v) /\ cell y [x] = Some v.
Proof.
  intros Hv Hl Hm Hx. assert (Hl0 : llabel y !! 0 = Some l) by by rewrite Hl.
  destruct (at_axis_get y 0 l (IInt z) (At x) Hv Hl0) as (g & Hg & Hp); [done|apply selects_int; eauto| |].
  { rewrite (sel_labels_at _ _ l) by done. rewrite Hl. constructor. }
  simpl in Hg. destruct g as [w|v|b]; [exfalso| |done].
  - destruct Hp as (Vw & _ & Lw & _). rewrite (sel_labels_at _ _ l) in Lw by done. rewrite Hl in Lw. by destruct Vw as (_ & [] & _).
  - exists v. destruct Hp as (_ & f & Hf & Hc). split; [done|]. rewrite Hl in Hf. by injection Hf as <-.
Qed.
Lemma at_axis_sound y ax l it g : valid y -> llabel y !! ax = Some l -> item_ok it -> larry_getitem y (at_axis ax it) = Ok g -> complete y (at_axis ax it) ->
  exists s, selects l it s.
Proof.
  intros Hv Hl Hok Hg Hc.
  assert (P : forall i a, (replicate ax (ISlice slice_all) ++ [it]) !! i = Some a -> ~ is_slice a -> i = ax).
  { intros i a Hi Hn. apply lookup_app_Some in Hi as [Hi|[H1 H2]].
    - apply lookup_replicate in Hi as [-> _]. by destruct Hn.
    - rewrite replicate_length in H1, H2. destruct (i - ax) as [|k] eqn:E; [lia|done]. }
  destruct (C10_getitem_partial y (at_axis ax it) g) as (ss & [_ Hs] & _); rewrite ?at_axis_items; try done.
  - apply Forall_app. split; [|by constructor]. by apply Forall_replicate.
  - left. intros i j k a b c Hijk Hi Hj Hk Hna Hnc Hnb. apply (P i a) in Hi; [|done]. apply (P k c) in Hk; [|done]. lia.
  - rewrite at_axis_items in Hs. destruct (Forall3_lookup_l _ _ _ _ _ _ Hs Hl) as (it' & s & Hi & _ & H).
    rewrite lookup_app_l in Hi by (rewrite app_length, replicate_length; simpl; lia).
    rewrite lookup_app_r in Hi by (rewrite replicate_length; lia). rewrite replicate_length, Nat.sub_diag in Hi. injection Hi as <-. eauto.
Qed.
Lemma at_axis_complete y ax it : complete y (at_axis ax it).
Proof.
  destruct ax as [|ax].
  - destruct it; [done| | | |]; simpl; intros Hf; by apply Forall_cons in Hf as [Hf _].
  - simpl. intros Hf. by apply Forall_cons in Hf as [Hf _].
Qed.
Theorem slice_refused y ax l s : valid y -> llabel y !! ax = Some l -> s_step s = Some 0%Z -> exists e, larry_getitem y (at_axis ax (ISlice s)) = Err e.
Proof.
  intros Hv Hl Hs. destruct (larry_getitem y _) as [g|e] eqn:E; [|eauto]. exfalso.
  destruct (at_axis_sound y ax l (ISlice s) g Hv Hl I E (at_axis_complete _ _ _)) as [[x|l'] H]; [done|].
  simpl in H. assert (py_slice s l = Err ValueError) by (by apply py_slice_error). congruence.
Qed.
Theorem int_refused y ax l z : valid y -> llabel y !! ax = Some l -> (forall i, ~ means (length l) z i) -> exists e, larry_getitem y (at_axis ax (IInt z)) = Err e.
Proof.
  intros Hv Hl Hs. destruct (larry_getitem y _) as [g|e] eqn:E; [|eauto]. exfalso.
  destruct (at_axis_sound y ax l (IInt z) g Hv Hl I E (at_axis_complete _ _ _)) as [[x|l'] H]; [|done].
  apply selects_int in H as (i & H & _). by apply (Hs i).
Qed.
Theorem take_positions y zs a z : valid y -> larry_take y zs a = Ok z ->
  exists ax l is l', axis_is y a ax /\ llabel y !! ax = Some l /\ Forall2 (means (length l)) zs is /\ Forall2 (fun i x => l !! i = Some x) is l' /\
    valid z /\ ldtype z = ldtype y /\ llabel z = <[ax := l']> (llabel y) /\ forall ls, in_grid (llabel z) ls -> cell z ls = cell y ls.
Proof.
  intros Hv H. destruct (C11_take _ _ _ _ Hv H) as (ax & l & l' & Hax & Hl & Hm & Vz & Dz & Lz & Cz).
  assert (exists is, Forall2 (means (length l)) zs is /\ Forall2 (fun i x => l !! i = Some x) is l') as (is & H1 & H2).
  { apply mapM_Some in Hm. clear -Hm. induction Hm as [|c x zs k Hz Hm (is & H1 & H2)]; [by exists []|].
    apply py_get_means in Hz as (i & ? & ?). exists (i :: is). split; by constructor. }
  exists ax, l, is, l'. split_and!; try done. exact (cell_iff_grid z y (fun ls => _) Cz Vz).
Qed.
