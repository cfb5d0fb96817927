(** Facts about align_raw, align and the alignment of the operators. *)
From Verif Require Export AlignFacts.
Local Arguments listmap : simpl never.
Local Arguments listmap_fill : simpl never.

(** ** One axis of one side *)

Lemma valid_axis_nodup y ax l : valid y -> llabel y !! ax = Some l -> NoDup l.
Proof. intros Hv Hl. exact (Forall_lookup_1 _ _ _ _ (valid_nodup y Hv) Hl). Qed.
Lemma valid_axis_shape y ax l : valid y -> llabel y !! ax = Some l -> lshape y !! ax = Some (length l).
Proof. intros Hv Hl. rewrite <-valid_shape by done. by rewrite list_lookup_fmap, Hl. Qed.

Lemma listmap_fill_listmap (old new : list lab) ids :
  listmap old new false = Ok ids -> listmap_fill old new 0 = (Z.of_nat <$> ids, []).
Proof.
  unfold listmap. rewrite mapR_ok, listmap_fill_eq. intros H. generalize 0 at 1.
  induction H as [|x i l ids Hx _ IH]; intros n; [done|]. csimpl.
  unfold fill_index at 1. destruct (dict_get (list1map old) x) as [p|]; [|done]. injection Hx as ->.
  simpl. specialize (IH (S n)). injection IH as E1 E2. by rewrite E1, E2.
Qed.
Lemma listmap_ex (old new : list lab) : (forall x, x ∈ new -> x ∈ old) -> exists ids, listmap old new false = Ok ids.
Proof. intros H. apply listmap_ok in H as (ids & ? & _). eauto. Qed.
Lemma listmap_incl (old new : list lab) ids : listmap old new false = Ok ids -> forall x, x ∈ new -> x ∈ old.
Proof.
  intros H x Hx. destruct (decide (x ∈ old)); [done|]. rewrite listmap_err in H; [done|]. intros Hall. by apply n, Hall.
Qed.

(** The variable [miss1]: while undefined the data has the dtype of the input;
    afterwards it is the missing marker. *)
Definition miss_state (dt0 : dtype) (d : dtype) (m : option (option val)) : Prop :=
  match m with
  | None => d = dt0
  | Some m => m = Some (missing_mark (missing_dtype dt0)) /\ d = missing_dtype dt0
  end.

Lemma fill_missing_eq dt0 cast x m ids ax :
  miss_state dt0 (nd_dtype x) m -> ids <> [] ->
  fill_missing dt0 cast x m ids ax =
    if decide (cast = false /\ missing_dtype dt0 <> dt0) then (if m then
      (x' ← put_axis (to_missing x) ids ax (missing_mark (missing_dtype (nd_dtype x)));
         Ok (x', Some (Some (missing_mark (missing_dtype dt0))))) else Err TypeError)
    else (x' ← put_axis (to_missing x) ids ax (missing_mark (missing_dtype (nd_dtype x)));
         Ok (x', Some (Some (missing_mark (missing_dtype dt0))))).
Proof.
  intros Hm Hne. unfold fill_missing. destruct ids as [|i ids]; [done|]. destruct x as [d a]. destruct m as [m|]; simpl in *.
  - destruct Hm as [-> ->]. destruct dt0, cast; done.
  - subst d. destruct dt0, cast; done.
Qed.

Lemma side_step z dt0 cast m k old new idx miss x x' m' :
  valid z -> llabel z !! k = Some old -> NoDup new -> miss_state dt0 (ldtype z) m ->
  (cast = false -> ldtype z = dt0) ->
  listmap_fill old new 0 = (idx, miss) -> nda_take (lx z) idx k = Ok x ->
  fill_missing dt0 cast x m miss k = Ok (x', m') ->
  realigned z (Larry x' (<[k := new]> (llabel z))) /\ miss_state dt0 (nd_dtype x') m' /\
  (cast = false -> nd_dtype x' = dt0) /\
  ((forall u, u ∈ new -> u ∈ old) -> nd_dtype x' = ldtype z).
Proof.
  intros Hv Hl Hnd Hms Hcast Hlm Ht Hf.
  assert (Hdx : nd_dtype x = ldtype z).
  { eapply (fill_take (lx z) k old new) in Ht as [? _]; [done|by eapply valid_axis_nodup|by apply valid_axis_shape|done]. }
  pose proof (listmap_fill_spec _ _ _ _ _ Hlm) as (_ & _ & _ & _ & Hmiss).
  destruct (decide (miss = [])) as [->|Hne].
  - injection Hf as <- <-.
    destruct (refill_realigned z k old new idx [] x x) as [Hr Hd]; [done..|]. split; [done|].
    rewrite Hdx. done.
  - rewrite fill_missing_eq in Hf by (congruence || done).
    assert (H : put_axis (to_missing x) miss k (missing_mark (missing_dtype (ldtype z))) = Ok x' /\
      m' = Some (Some (missing_mark (missing_dtype dt0))) /\ (cast = false -> missing_dtype dt0 = dt0)).
    { rewrite Hdx in Hf. destruct (decide (cast = false /\ missing_dtype dt0 <> dt0)) as [[Hc Hmd]|Hc].
      - destruct m as [m|]; [|done]. destruct Hms as [-> Hd]. specialize (Hcast Hc). congruence.
      - apply bind_ok in Hf as (x1 & -> & [= -> <-]). split; [done|]. split; [done|]. intros ->.
        destruct (decide (missing_dtype dt0 = dt0)); [done|]. by destruct Hc. }
    destruct H as (Hp & -> & Hcm).
    destruct (refill_realigned z k old new idx miss x x') as [Hr Hd]; [done..| |].
    { destruct miss; [done|]. exact Hp. }
    rewrite decide_False in Hd by done.
    assert (Hmd : missing_dtype (ldtype z) = missing_dtype dt0).
    { destruct m as [m|]; simpl in Hms; [destruct Hms as [_ ->]; by destruct dt0|congruence]. }
    split; [done|]. split; [split; [done|congruence]|]. split.
    + intros Hc. rewrite Hd, Hmd. by apply Hcm.
    + intros Hin. destruct miss as [|i miss]; [done|]. exfalso.
      destruct (proj1 (Hmiss i)) as (u & Hu & Hno); [by left|]. apply Hno, Hin. by eapply elem_of_list_lookup_2.
Qed.

Lemma side_ex z dt0 cast m k old new idx miss :
  valid z -> llabel z !! k = Some old -> miss_state dt0 (ldtype z) m ->
  listmap_fill old new 0 = (idx, miss) -> old <> [] \/ new = [] ->
  cast = true \/ missing_dtype dt0 = dt0 \/ (forall u, u ∈ new -> u ∈ old) ->
  exists x x' m', nda_take (lx z) idx k = Ok x /\ fill_missing dt0 cast x m miss k = Ok (x', m').
Proof.
  intros Hv Hl Hms Hlm Hemp Hdt.
  pose proof (listmap_fill_spec _ _ _ _ _ Hlm) as (_ & _ & _ & _ & Hmiss).
  destruct (fill_take_ex (lx z) k old new idx miss) as [x Hx]; [by apply valid_wf|by apply valid_axis_shape|done| |].
  { destruct Hemp as [?| ->]; [by left|]. right. destruct miss as [|i miss]; [done|].
    destruct (proj1 (Hmiss i)) as (u & Hu & _); [by left|]. done. }
  pose proof (fill_take (lx z) k old new idx miss x) as Hft.
  destruct Hft as (Hd & Hsh & Hwf & _); [by eapply valid_axis_nodup|by apply valid_axis_shape|done..|].
  exists x. destruct (decide (miss = [])) as [->|Hne]; [by eauto|].
  rewrite (fill_missing_eq dt0 cast x m miss k); [|by rewrite Hd|done].
  destruct (put_axis_ex (to_missing x) miss k (missing_mark (missing_dtype (nd_dtype x))) (missing_mark (missing_dtype (nd_dtype x))) (length new)) as [x' Hx'].
  - by apply to_missing_wf.
  - change (shape (nd_arr (to_missing x))) with (nd_shape (to_missing x)). rewrite to_missing_shape, Hsh.
    apply list_lookup_insert. pose proof (valid_axis_shape _ _ _ Hv Hl). by eapply lookup_lt_Some.
  - apply Forall_forall. intros i Hi. apply Hmiss in Hi as (u & Hu & _). by eapply lookup_lt_Some.
  - rewrite to_missing_dtype. by destruct (nd_dtype x).
  - destruct (decide _) as [[-> Hmd]|]; [|rewrite Hx'; simpl; by eauto].
    exfalso. destruct Hdt as [?|[?|Hin]]; [done..|]. destruct miss as [|i miss]; [done|].
    destruct (proj1 (Hmiss i)) as (u & Hu & Hno); [by left|]. apply Hno, Hin. by eapply elem_of_list_lookup_2.
Qed.

(** ** align_raw *)


Definition align_inv (js : list join_type) (cast : bool) (y1 y2 : larry) (k : nat) (st : align_st) : Prop :=
  exists z1 z2, al_x1 st = lx z1 /\ al_x2 st = lx z2 /\
  aligned_upto (fun i l1 l2 r1 r2 => exists j, js !! i = Some j /\ join_label j l1 l2 r1 r2) k y1 y2 z1 z2 /\
  miss_state (ldtype y1) (ldtype z1) (al_m1 st) /\ miss_state (ldtype y2) (ldtype z2) (al_m2 st) /\
  (cast = false -> ldtype z1 = ldtype y1 /\ ldtype z2 = ldtype y2) /\
  (no_new_label y1 z1 -> ldtype z1 = ldtype y1) /\ (no_new_label y2 z2 -> ldtype z2 = ldtype y2) /\
  (al_view1 st = true -> lx z1 = lx y1) /\ (al_view2 st = true -> lx z2 = lx y2) /\
  length (al_label st) = k /\
  (forall i o, al_label st !! i = Some o ->
     match o with
     | None => llabel z1 !! i = llabel y1 !! i /\ llabel z2 !! i = llabel y2 !! i
     | Some r => llabel z1 !! i = Some r /\ llabel z2 !! i = Some r
     end).

(** What a step does to one side. *)
Definition side_ok (cast : bool) (dt0 : dtype) (z : larry) (v : bool) (k : nat) (new : list lab)
    (x' : nda) (m' : option (option val)) (v' : bool) : Prop :=
  realigned z (Larry x' (<[k := new]> (llabel z))) /\ miss_state dt0 (nd_dtype x') m' /\
  (cast = false -> nd_dtype x' = dt0) /\
  (forall old, llabel z !! k = Some old -> (forall u, u ∈ new -> u ∈ old) -> nd_dtype x' = ldtype z) /\
  (v' = true -> v = true /\ x' = lx z).

Lemma side_keep cast dt0 z v k l m :
  valid z -> llabel z !! k = Some l -> miss_state dt0 (ldtype z) m -> (cast = false -> ldtype z = dt0) ->
  side_ok cast dt0 z v k l (lx z) m v.
Proof.
  intros Hv Hl Hm Hc. split_and!; try done.
  rewrite list_insert_id by done. destruct z. by apply realigned_refl.
Qed.
Lemma side_move cast dt0 z v m k old new idx miss x x' m' :
  valid z -> llabel z !! k = Some old -> NoDup new -> miss_state dt0 (ldtype z) m ->
  (cast = false -> ldtype z = dt0) ->
  listmap_fill old new 0 = (idx, miss) -> nda_take (lx z) idx k = Ok x ->
  fill_missing dt0 cast x m miss k = Ok (x', m') -> side_ok cast dt0 z v k new x' m' false.
Proof.
  intros Hv Hl Hnd Hm Hc Hlm Hx Hf.
  destruct (side_step z dt0 cast m k old new idx miss x x' m') as (? & ? & ? & ?); try done.
  split_and!; try done. intros old' Hl'. rewrite Hl in Hl'. injection Hl' as <-. done.
Qed.

Lemma no_new_label_step y z x k (new : list lab) :
  llabel z !! k = llabel y !! k -> length (llabel z) = length (llabel y) -> k < length (llabel y) ->
  no_new_label y (Larry x (<[k := new]> (llabel z))) ->
  no_new_label y z /\ exists old, llabel z !! k = Some old /\ forall u, u ∈ new -> u ∈ old.
Proof.
  intros Hk Hlen Hlt Hn. split.
  - intros i l r Hl Hr u Hu. destruct (decide (i = k)) as [->|].
    + assert (l = r) as -> by congruence. done.
    + eapply (Hn i); [exact Hl| |exact Hu]. simpl. by rewrite list_lookup_insert_ne.
  - destruct (lookup_lt_is_Some_2 (llabel y) k) as [old Ho]; [done|]. exists old. split; [congruence|].
    apply (Hn k); [done|]. simpl. apply list_lookup_insert. lia.
Qed.

Lemma align_inv_step js cast y1 y2 k st z1 z2 j l1 l2 n1 n2 x1 m1 v1 x2 m2 v2 o :
  valid y1 -> valid y2 ->
  al_x1 st = lx z1 -> al_x2 st = lx z2 ->
  aligned_upto (fun i l1 l2 r1 r2 => exists j, js !! i = Some j /\ join_label j l1 l2 r1 r2) k y1 y2 z1 z2 ->
  (no_new_label y1 z1 -> ldtype z1 = ldtype y1) -> (no_new_label y2 z2 -> ldtype z2 = ldtype y2) ->
  (al_view1 st = true -> lx z1 = lx y1) -> (al_view2 st = true -> lx z2 = lx y2) ->
  length (al_label st) = k ->
  (forall i o, al_label st !! i = Some o ->
     match o with
     | None => llabel z1 !! i = llabel y1 !! i /\ llabel z2 !! i = llabel y2 !! i
     | Some r => llabel z1 !! i = Some r /\ llabel z2 !! i = Some r
     end) ->
  llabel y1 !! k = Some l1 -> llabel y2 !! k = Some l2 -> js !! k = Some j ->
  side_ok cast (ldtype y1) z1 (al_view1 st) k n1 x1 m1 v1 ->
  side_ok cast (ldtype y2) z2 (al_view2 st) k n2 x2 m2 v2 ->
  join_label j l1 l2 n1 n2 ->
  match o with None => n1 = l1 /\ n2 = l2 | Some r => n1 = r /\ n2 = r end ->
  align_inv js cast y1 y2 (S k) (AlignSt x1 m1 v1 x2 m2 v2 (al_label st ++ [o])).
Proof.
  intros Hy1 Hy2 Hx1 Hx2 Hal Hk1 Hk2 Hw1 Hw2 Hlen Hlab Hl1 Hl2 Hj (R1 & M1 & C1 & D1 & V1) (R2 & M2 & C2 & D2 & V2) HJ Ho.
  pose proof Hal as (_ & _ & Hlz1 & Hlz2 & _ & Hge). destruct (Hge k) as [G1 G2]; [done|].
  exists (Larry x1 (<[k := n1]> (llabel z1))), (Larry x2 (<[k := n2]> (llabel z2))).
  assert (k < length (llabel y1)) by (by eapply lookup_lt_Some).
  assert (k < length (llabel y2)) by (by eapply lookup_lt_Some).
  split_and!; simpl; try done.
  - eapply aligned_upto_step; try done. by exists j.
  - intros Hc. split; [by apply C1|by apply C2].
  - intros Hn. apply no_new_label_step in Hn as (Hn & old & Ho1 & Hin); [|done..].
    transitivity (ldtype z1); [|by apply Hk1]. by eapply D1.
  - intros Hn. apply no_new_label_step in Hn as (Hn & old & Ho2 & Hin); [|done..].
    transitivity (ldtype z2); [|by apply Hk2]. by eapply D2.
  - intros Hv. destruct (V1 Hv) as [? ->]. by apply Hw1.
  - intros Hv. destruct (V2 Hv) as [? ->]. by apply Hw2.
  - rewrite app_length. simpl. lia.
  - intros i o' Hi. apply lookup_app_Some in Hi as [Hi|[Hge' Hi]].
    + pose proof (lookup_lt_Some _ _ _ Hi). rewrite !list_lookup_insert_ne by lia. by apply Hlab.
    + apply list_lookup_singleton_Some in Hi as [Hi <-]. assert (i = k) as -> by lia. rewrite !list_lookup_insert by lia. destruct o as [r|].
      * by destruct Ho as [-> ->].
      * destruct Ho as [-> ->]. by rewrite Hl1, Hl2.
Qed.

Lemma sorted_inter_ok l1 l2 u :
  sorted_inter l1 l2 = Ok u -> StronglySorted lab_lt u /\ forall x, x ∈ u <-> x ∈ l1 /\ x ∈ l2.
Proof.
  intros (_ & Hs & Hp)%py_sorted_ok. split.
  - apply sorted_lt_nodup; [done|]. rewrite Hp. apply NoDup_remove_dups.
  - intros x. rewrite Hp, elem_of_remove_dups, elem_of_list_filter. tauto.
Qed.
Lemma sorted_inter_ex l1 l2 : all_comparable (filter (fun x => x ∈ l2) l1) <-> exists u, sorted_inter l1 l2 = Ok u.
Proof.
  split.
  - intros Hs%sortable_spec. apply py_sorted_total. eapply sortable_incl; [|exact Hs]. intros x. by rewrite elem_of_remove_dups.
  - intros [u (Hs & _)%py_sorted_ok]. refine (proj1 (sortable_spec _) _). eapply sortable_incl; [|exact Hs]. intros x. by rewrite elem_of_remove_dups.
Qed.
Lemma sorted_union_ex l1 l2 : all_comparable (l1 ++ l2) <-> exists u, sorted_union l1 l2 = Ok u.
Proof.
  split.
  - intros Hs%sortable_spec. apply py_sorted_total. eapply sortable_incl; [|exact Hs]. intros x. by rewrite elem_of_remove_dups.
  - intros [u (Hs & _)%py_sorted_ok]. refine (proj1 (sortable_spec _) _). eapply sortable_incl; [|exact Hs]. intros x. by rewrite elem_of_remove_dups.
Qed.

Lemma align_inv_run js cast y1 y2 k st st' :
  valid y1 -> valid y2 -> lndim y1 = lndim y2 -> k < lndim y2 ->
  align_inv js cast y1 y2 k st -> align_step y1 y2 cast js st k = Ok st' -> align_inv js cast y1 y2 (S k) st'.
Proof.
  intros Hy1 Hy2 Hnd Hk (z1 & z2 & Hx1 & Hx2 & Hal & M1 & M2 & HC & Hk1 & Hk2 & Hw1 & Hw2 & Hlen & Hlab).
  pose proof Hal as (Hr1 & Hr2 & Hlz1 & Hlz2 & _ & Hge).
  destruct (lookup_lt_is_Some_2 (llabel y1) k) as [l1 Hl1]; [rewrite valid_ndim by done; lia|].
  destruct (lookup_lt_is_Some_2 (llabel y2) k) as [l2 Hl2]; [by rewrite valid_ndim|].
  destruct (Hge k) as [G1 G2]; [lia|]. rewrite Hl1 in G1. rewrite Hl2 in G2.
  pose proof (valid_axis_nodup y1 k l1 Hy1 Hl1) as N1. pose proof (valid_axis_nodup y2 k l2 Hy2 Hl2) as N2.
  destruct st as [x1 m1 v1 x2 m2 v2 label]. simpl in *. subst x1 x2. rewrite Hl1, Hl2. simpl.
  destruct (js !! k) as [j|] eqn:Hj; [|done]. simpl.
  assert (S1 : side_ok cast (ldtype y1) z1 v1 k l1 (lx z1) m1 v1).
  { apply side_keep; try done; [by destruct Hr1|]. intros Hc. by apply HC. }
  assert (S2 : side_ok cast (ldtype y2) z2 v2 k l2 (lx z2) m2 v2).
  { apply side_keep; try done; [by destruct Hr2|]. intros Hc. by apply HC. }
  assert (T1 : forall new idx miss x x' m', NoDup new -> listmap_fill l1 new 0 = (idx, miss) -> nda_take (lx z1) idx k = Ok x ->
    fill_missing (ldtype y1) cast x m1 miss k = Ok (x', m') -> side_ok cast (ldtype y1) z1 v1 k new x' m' false).
  { intros. eapply side_move; try done; [by destruct Hr1|]. intros Hc. by apply HC. }
  assert (T2 : forall new idx miss x x' m', NoDup new -> listmap_fill l2 new 0 = (idx, miss) -> nda_take (lx z2) idx k = Ok x ->
    fill_missing (ldtype y2) cast x m2 miss k = Ok (x', m') -> side_ok cast (ldtype y2) z2 v2 k new x' m' false).
  { intros. eapply side_move; try done; [by destruct Hr2|]. intros Hc. by apply HC. }
  pose proof (align_inv_step js cast y1 y2 k (AlignSt (lx z1) m1 v1 (lx z2) m2 v2 label) z1 z2 j l1 l2) as STEP. simpl in STEP.
  destruct j; simpl.
  - destruct (decide (l1 = l2)) as [->|Hne].
    + intros [= <-]. eapply STEP; try done. split; [done|]. unfold inter_label. by rewrite decide_True.
    + rewrite bind_ok. intros (u & Hu & H). apply bind_ok in H as (i1 & Hi1 & H). apply bind_ok in H as (i2 & Hi2 & H).
      apply bind_ok in H as (x1 & Hx1 & H). apply bind_ok in H as (x2 & Hx2 & [= <-]).
      apply sorted_inter_ok in Hu as [Hs Hin].
      eapply STEP; try done.
      * eapply T1; [by apply lt_sorted_nodup|by apply listmap_fill_listmap|done|done].
      * eapply T2; [by apply lt_sorted_nodup|by apply listmap_fill_listmap|done|done].
      * split; [done|]. unfold inter_label. by rewrite decide_False.
  - destruct (decide (l1 = l2)) as [->|Hne].
    + intros [= <-]. eapply STEP; try done. split; [done|]. unfold union_label. by rewrite decide_True.
    + rewrite bind_ok. intros (u & Hu & H). destruct (listmap_fill l1 u 0) as [i1 s1] eqn:L1. destruct (listmap_fill l2 u 0) as [i2 s2] eqn:L2.
      apply bind_ok in H as (x1 & Hx1 & H). apply bind_ok in H as (x2 & Hx2 & H).
      apply bind_ok in H as ([x1' m1'] & Hf1 & H). apply bind_ok in H as ([x2' m2'] & Hf2 & [= <-]).
      apply sorted_set_ok in Hu as [Hs Hin].
      eapply STEP; try done.
      * eapply T1; try done. by apply lt_sorted_nodup.
      * eapply T2; try done. by apply lt_sorted_nodup.
      * split; [done|]. unfold union_label. rewrite decide_False by done. split; [done|]. intros x. by rewrite Hin, elem_of_app.
  - destruct (decide (l1 = l2)) as [->|Hne].
    + intros [= <-]. by eapply STEP.
    + unfold refill. destruct (listmap_fill l2 l1 0) as [i2 s2] eqn:L2. rewrite bind_ok. intros ([x2' m2'] & H & [= <-]).
      apply bind_ok in H as (x2 & Hx2 & Hf2). eapply STEP; try done. by eapply T2.
  - destruct (decide (l1 = l2)) as [->|Hne].
    + intros [= <-]. by eapply STEP.
    + unfold refill. destruct (listmap_fill l1 l2 0) as [i1 s1] eqn:L1. rewrite bind_ok. intros ([x1' m1'] & H & [= <-]).
      apply bind_ok in H as (x1 & Hx1 & Hf1). eapply STEP; try done. by eapply T1.
  - intros [= <-]. by eapply STEP.
  - done.
Qed.


Lemma align_inv_0 js cast y1 y2 : valid y1 -> valid y2 ->
  align_inv js cast y1 y2 0 (AlignSt (lx y1) None true (lx y2) None true []).
Proof. intros H1 H2. exists y1, y2. split_and!; try done. by apply aligned_upto_0. Qed.

Lemma align_raw_inv y1 y2 j cast st :
  valid y1 -> valid y2 -> align_raw y1 y2 j cast = Ok st ->
  lndim y1 = lndim y2 /\ exists js, joins_are (lndim y2) j js /\ align_inv js cast y1 y2 (lndim y2) st.
Proof.
  intros H1 H2. unfold align_raw. destruct (decide _) as [|Hnd]; [done|].
  assert (Hnd' : lndim y1 = lndim y2) by (destruct (decide (lndim y1 = lndim y2)); done). clear Hnd.
  rewrite bind_ok. intros (js & Hjs & HF). split; [done|]. exists js. split.
  { destruct j as [j|l|]; simpl in *; [congruence| |done]. destruct (decide (length l <> lndim y2)); [done|].
    injection Hjs as <-. split; [done|]. destruct (decide (length l = lndim y2)); done. }
  eapply (foldM_seq_inv (align_inv js cast y1 y2) _ _ _ _ (align_inv_0 js cast y1 y2 H1 H2)); [|exact HF].
  intros k s s' Hk. by apply align_inv_run.
Qed.

Lemma own_label_ok (lar z : larry) (label : list (option (list lab))) :
  length (llabel z) = length label ->
  (forall i o, label !! i = Some o ->
     match o with None => llabel z !! i = llabel lar !! i | Some r => llabel z !! i = Some r end) ->
  own_label lar label = Ok (llabel z).
Proof.
  intros Hlen Hlab. unfold own_label. apply mapR_ok. apply Forall2_same_length_lookup_2.
  - rewrite zip_with_length, seq_length. lia.
  - intros i [n o] r Hi Hr. apply lookup_zip_with_Some in Hi as (n' & o' & [= -> ->] & Hn & Ho).
    apply lookup_seq in Hn as [-> _]. specialize (Hlab _ _ Ho). simpl. destruct o' as [r'|]; [congruence|].
    by rewrite <-Hlab, Hr.
Qed.

Lemma align_spec y1 y2 j cast z1 z2 :
  valid y1 -> valid y2 -> align y1 y2 j cast = Ok (z1, z2) ->
  lndim y1 = lndim y2 /\ realigned y1 z1 /\ realigned y2 z2 /\
  length (llabel z1) = length (llabel y1) /\ length (llabel z2) = length (llabel y2) /\
  (exists js, joins_are (lndim y2) j js /\
     forall i l1 l2 r1 r2, llabel y1 !! i = Some l1 -> llabel y2 !! i = Some l2 ->
       llabel z1 !! i = Some r1 -> llabel z2 !! i = Some r2 ->
       exists ji, js !! i = Some ji /\ join_label ji l1 l2 r1 r2) /\
  (cast = false -> ldtype z1 = ldtype y1 /\ ldtype z2 = ldtype y2) /\
  (no_new_label y1 z1 -> ldtype z1 = ldtype y1) /\ (no_new_label y2 z2 -> ldtype z2 = ldtype y2).
Proof.
  intros H1 H2. unfold align. rewrite bind_ok. intros (st & Hst & H).
  apply align_raw_inv in Hst as (Hnd & js & Hjs & w1 & w2 & Hx1 & Hx2 & Hal & _ & _ & HC & Hk1 & Hk2 & _ & _ & Hlen & Hlab); [|done..].
  pose proof Hal as (Hr1 & Hr2 & Hl1 & Hl2 & Hlt & _).
  assert (Hlw1 : length (llabel w1) = length (al_label st)) by (rewrite Hl1, valid_ndim by done; lia).
  assert (Hlw2 : length (llabel w2) = length (al_label st)) by (rewrite Hl2, valid_ndim by done; lia).
  rewrite (own_label_ok y1 w1), (own_label_ok y2 w2) in H; try done.
  2:{ intros i o Ho. specialize (Hlab i o Ho). destruct o; by destruct Hlab. }
  2:{ intros i o Ho. specialize (Hlab i o Ho). destruct o; by destruct Hlab. }
  simpl in H. injection H as <- <-. rewrite Hx1, Hx2. destruct w1 as [x1 r1], w2 as [x2 r2]. simpl in *.
  split_and!; try done. exists js. split; [done|]. intros i a b c d Ha Hb Hc Hd.
  eapply Hlt; try done. rewrite <-valid_ndim by done. by eapply lookup_lt_Some.
Qed.


Lemma align_step_ex js cast y1 y2 k st j l1 l2 :
  valid y1 -> valid y2 -> lndim y1 = lndim y2 -> k < lndim y2 ->
  llabel y1 !! k = Some l1 -> llabel y2 !! k = Some l2 -> js !! k = Some j -> joinable j l1 l2 ->
  fillable cast (ldtype y1) j l1 l2 -> fillable cast (ldtype y2) (join_mirror j) l2 l1 ->
  align_inv js cast y1 y2 k st -> exists st', align_step y1 y2 cast js st k = Ok st'.
Proof.
  intros Hy1 Hy2 Hnd Hk Hl1 Hl2 Hj Hjo Hdt1 Hdt2 (z1 & z2 & Hx1 & Hx2 & Hal & M1 & M2 & HC & Hk1 & Hk2 & Hw1 & Hw2 & Hlen & Hlab).
  pose proof Hal as (Hr1 & Hr2 & Hlz1 & Hlz2 & _ & Hge).
  destruct (Hge k) as [G1 G2]; [lia|]. rewrite Hl1 in G1. rewrite Hl2 in G2.
  destruct st as [x1 m1 v1 x2 m2 v2 label]. simpl in *. subst x1 x2. rewrite Hl1, Hl2, Hj. simpl.
  assert (T1 : forall new idx miss, listmap_fill l1 new 0 = (idx, miss) -> l1 <> [] \/ new = [] ->
    cast = true \/ missing_dtype (ldtype y1) = ldtype y1 \/ (forall u, u ∈ new -> u ∈ l1) ->
    exists x x' m', nda_take (lx z1) idx k = Ok x /\ fill_missing (ldtype y1) cast x m1 miss k = Ok (x', m')).
  { intros new idx miss Hlm Hor Hd. eapply side_ex; try done; by destruct Hr1. }
  assert (T2 : forall new idx miss, listmap_fill l2 new 0 = (idx, miss) -> l2 <> [] \/ new = [] ->
    cast = true \/ missing_dtype (ldtype y2) = ldtype y2 \/ (forall u, u ∈ new -> u ∈ l2) ->
    exists x x' m', nda_take (lx z2) idx k = Ok x /\ fill_missing (ldtype y2) cast x m2 miss k = Ok (x', m')).
  { intros new idx miss Hlm Hor Hd. eapply side_ex; try done; by destruct Hr2. }
  assert (Hsub : forall l l' : list lab, ~ (exists x, x ∈ l' /\ x ∉ l) -> forall u, u ∈ l' -> u ∈ l).
  { intros l l' Hno u Hu. destruct (decide (u ∈ l)) as [|Hn]; [done|]. destruct Hno. eauto. }
  unfold fillable in Hdt1, Hdt2. destruct j; simpl in *.
  - destruct (decide (l1 = l2)) as [->|Hne]; [by eauto|]. destruct Hjo as [?|Hs]; [done|].
    destruct (proj1 (sorted_inter_ex l1 l2) Hs) as [u Hu]. rewrite Hu. simpl. apply sorted_inter_ok in Hu as [_ Hin].
    destruct (listmap_ex l1 u) as [i1 Hi1]; [naive_solver|]. destruct (listmap_ex l2 u) as [i2 Hi2]; [naive_solver|].
    rewrite Hi1, Hi2. simpl. apply listmap_fill_listmap in Hi1, Hi2.
    assert (HE : forall (l : list lab), (forall x, x ∈ u -> x ∈ l) -> l <> [] \/ u = []).
    { intros [|a l] Hl; [|by left]. right. destruct u as [|b u]; [done|]. by destruct (not_elem_of_nil b); apply Hl; left. }
    destruct (T1 _ _ _ Hi1) as (x1 & _ & _ & -> & _); [apply HE; naive_solver|right; right; naive_solver|].
    destruct (T2 _ _ _ Hi2) as (x2 & _ & _ & -> & _); [apply HE; naive_solver|right; right; naive_solver|]. simpl. by eauto.
  - destruct (decide (l1 = l2)) as [->|Hne]; [by eauto|]. destruct Hjo as [?|(Hs & E1 & E2)]; [done|].
    destruct (proj1 (sorted_union_ex l1 l2) Hs) as [u Hu]. rewrite Hu. simpl. apply sorted_set_ok in Hu as [_ Hin].
    destruct (listmap_fill l1 u 0) as [i1 s1] eqn:L1. destruct (listmap_fill l2 u 0) as [i2 s2] eqn:L2.
    assert (Hu1 : (forall x, x ∈ l2 -> x ∈ l1) -> forall x, x ∈ u -> x ∈ l1).
    { intros HH x Hx. apply Hin, elem_of_app in Hx as [?|?]; auto. }
    assert (Hu2 : (forall x, x ∈ l1 -> x ∈ l2) -> forall x, x ∈ u -> x ∈ l2).
    { intros HH x Hx. apply Hin, elem_of_app in Hx as [?|?]; auto. }
    destruct (T1 _ _ _ L1) as (x1 & x1' & m1' & -> & Hf1); [by left| |].
    { destruct Hdt1 as [?|[?|Hno]]; [by left|by right; left|right; right]. apply Hu1. by apply Hsub. }
    destruct (T2 _ _ _ L2) as (x2 & x2' & m2' & -> & Hf2); [by left| |].
    { destruct Hdt2 as [?|[?|Hno]]; [by left|by right; left|right; right]. apply Hu2. by apply Hsub. }
    simpl. rewrite Hf1. simpl. rewrite Hf2. simpl. by eauto.
  - destruct (decide (l1 = l2)) as [->|Hne]; [by eauto|]. destruct Hjo as [?|E]; [done|].
    unfold refill. destruct (listmap_fill l2 l1 0) as [i2 s2] eqn:L2.
    destruct (T2 _ _ _ L2) as (x2 & x2' & m2' & -> & Hf2); [done| |].
    { destruct Hdt2 as [?|[?|Hno]]; [by left|by right; left|right; right]. by apply Hsub. }
    simpl. rewrite Hf2. simpl. by eauto.
  - destruct (decide (l1 = l2)) as [->|Hne]; [by eauto|]. destruct Hjo as [?|E]; [done|].
    unfold refill. destruct (listmap_fill l1 l2 0) as [i1 s1] eqn:L1.
    destruct (T1 _ _ _ L1) as (x1 & x1' & m1' & -> & Hf1); [done| |].
    { destruct Hdt1 as [?|[?|Hno]]; [by left|by right; left|right; right]. by apply Hsub. }
    simpl. rewrite Hf1. simpl. by eauto.
  - by eauto.
  - done.
Qed.

(** The conditions on every axis. *)
Definition axes_joinable (cast : bool) (y1 y2 : larry) (js : list join_type) : Prop :=
  forall i ji l1 l2, js !! i = Some ji -> llabel y1 !! i = Some l1 -> llabel y2 !! i = Some l2 ->
    joinable ji l1 l2 /\ fillable cast (ldtype y1) ji l1 l2 /\ fillable cast (ldtype y2) (join_mirror ji) l2 l1.
Lemma joins_given nd j js : joins_are nd j js ->
  match j with
  | JOne j => Ok (replicate nd j)
  | JList js => if decide (length js <> nd) then Err ValueError else Ok js
  | JOther => Err TypeError
  end = Ok js /\ length js = nd.
Proof.
  intros Hjs. destruct j as [j|l|]; simpl in Hjs; [subst; by rewrite replicate_length| |done].
  destruct Hjs as [-> ?]. by rewrite decide_False by tauto.
Qed.
Lemma align_raw_ex y1 y2 j cast js :
  valid y1 -> valid y2 -> lndim y1 = lndim y2 -> joins_are (lndim y2) j js ->
  axes_joinable cast y1 y2 js -> exists st, align_raw y1 y2 j cast = Ok st.
Proof.
  intros H1 H2 Hnd Hjs Hjo. unfold align_raw. rewrite decide_False by tauto.
  destruct (joins_given _ _ _ Hjs) as [-> Hlen]. simpl.
  destruct (foldM_seq_ex (align_inv js cast y1 y2) (align_step y1 y2 cast js)
    (AlignSt (lx y1) None true (lx y2) None true []) (lndim y2) (align_inv_0 js cast y1 y2 H1 H2)) as (st & -> & _); [|by eauto].
  intros k st Hk Hinv.
  destruct (lookup_lt_is_Some_2 (llabel y1) k) as [l1 Hl1]; [rewrite valid_ndim by done; lia|].
  destruct (lookup_lt_is_Some_2 (llabel y2) k) as [l2 Hl2]; [by rewrite valid_ndim|].
  destruct (lookup_lt_is_Some_2 js k) as [ji Hji]; [lia|].
  destruct (Hjo k ji l1 l2 Hji Hl1 Hl2) as (Hj & Hf1 & Hf2).
  destruct (align_step_ex js cast y1 y2 k st ji l1 l2) as [st' Hst']; try done.
  exists st'. split; [done|]. by eapply align_inv_run.
Qed.

(** The conditions are necessary. *)
Lemma take_nonempty z k (old new : list lab) idx miss x :
  valid z -> llabel z !! k = Some old -> listmap_fill old new 0 = (idx, miss) -> nda_take (lx z) idx k = Ok x -> old <> [] \/ new = [].
Proof.
  intros Hv Hl Hlm Ht. destruct old as [|o old]; [|by left]. right.
  pose proof (listmap_fill_spec _ _ _ _ _ Hlm) as (Hlen & _).
  unfold nda_take in Ht. apply bind_ok in Ht as (b & Hb & _). unfold np_take in Hb.
  pose proof (valid_axis_shape _ _ _ Hv Hl) as Hs. unfold axlen in Hb. change (shape (nd_arr (lx z))) with (lshape z) in Hb. rewrite Hs in Hb.
  simpl in Hb. apply bind_ok in Hb as (ps & Hps & _). apply of_opt_ok in Hps. destruct idx as [|i idx]; [by destruct new|].
  simpl in Hps. apply bind_Some in Hps as (p & Hp & _). by apply py_index_lt in Hp; lia.
Qed.
Lemma fill_needs z dt0 cast m k (old new : list lab) idx miss x q :
  miss_state dt0 (ldtype z) m -> (cast = false -> ldtype z = dt0) ->
  listmap_fill old new 0 = (idx, miss) -> nda_take (lx z) idx k = Ok x -> fill_missing dt0 cast x m miss k = Ok q ->
  cast = true \/ missing_dtype dt0 = dt0 \/ (forall u, u ∈ new -> u ∈ old).
Proof.
  intros Hms Hcast Hlm Ht Hf. destruct cast; [by left|]. right.
  destruct (decide (missing_dtype dt0 = dt0)) as [|Hmd]; [by left|]. right. intros u Hu.
  destruct (decide (u ∈ old)) as [|Hno]; [done|]. exfalso.
  pose proof (listmap_fill_spec _ _ _ _ _ Hlm) as (_ & _ & _ & _ & Hmiss).
  apply elem_of_list_lookup in Hu as [i Hi].
  assert (Hin : i ∈ miss) by (apply Hmiss; eauto). assert (Hne : miss <> []) by (by intros ->; apply elem_of_nil in Hin).
  assert (Hdx : nd_dtype x = ldtype z). { unfold nda_take in Ht. by apply bind_ok in Ht as (b & _ & [= <-]). }
  rewrite fill_missing_eq in Hf by (congruence || done).
  destruct (decide _) as [_|Hc]; [|by destruct Hc]. destruct m as [m|]; [|done].
  destruct Hms as [-> Hd]. specialize (Hcast eq_refl). congruence.
Qed.

Lemma align_step_only js cast y1 y2 k st st' j l1 l2 :
  valid y1 -> valid y2 -> lndim y1 = lndim y2 -> k < lndim y2 ->
  align_inv js cast y1 y2 k st -> align_step y1 y2 cast js st k = Ok st' ->
  llabel y1 !! k = Some l1 -> llabel y2 !! k = Some l2 -> js !! k = Some j ->
  joinable j l1 l2 /\ fillable cast (ldtype y1) j l1 l2 /\ fillable cast (ldtype y2) (join_mirror j) l2 l1.
Proof.
  intros Hy1 Hy2 Hnd Hk (z1 & z2 & Hx1 & Hx2 & Hal & M1 & M2 & HC & _) Hst Hl1 Hl2 Hj.
  pose proof Hal as (Hr1 & Hr2 & Hlz1 & Hlz2 & _ & Hge).
  destruct (Hge k) as [G1 G2]; [lia|]. rewrite Hl1 in G1. rewrite Hl2 in G2.
  destruct st as [x1 m1 v1 x2 m2 v2 label]. simpl in *. subst x1 x2. rewrite Hl1, Hl2, Hj in Hst. simpl in Hst.
  assert (T1 : forall new idx miss x q, listmap_fill l1 new 0 = (idx, miss) -> nda_take (lx z1) idx k = Ok x ->
    fill_missing (ldtype y1) cast x m1 miss k = Ok q ->
    (l1 <> [] \/ new = []) /\ (cast = true \/ missing_dtype (ldtype y1) = ldtype y1 \/ (forall u, u ∈ new -> u ∈ l1))).
  { intros new idx miss x q Hlm Ht Hf. split; [eapply (take_nonempty z1); try done; by destruct Hr1|].
    eapply (fill_needs z1); try done. intros Hc. by apply HC. }
  assert (T2 : forall new idx miss x q, listmap_fill l2 new 0 = (idx, miss) -> nda_take (lx z2) idx k = Ok x ->
    fill_missing (ldtype y2) cast x m2 miss k = Ok q ->
    (l2 <> [] \/ new = []) /\ (cast = true \/ missing_dtype (ldtype y2) = ldtype y2 \/ (forall u, u ∈ new -> u ∈ l2))).
  { intros new idx miss x q Hlm Ht Hf. split; [eapply (take_nonempty z2); try done; by destruct Hr2|].
    eapply (fill_needs z2); try done. intros Hc. by apply HC. }
  assert (Hid : forall (l l' : list lab), l = l' -> ~ (exists x, x ∈ l' /\ x ∉ l)) by (intros l l' -> (x & ? & ?); done).
  assert (Hsub : forall (l l' : list lab), (forall u, u ∈ l' -> u ∈ l) -> ~ (exists x, x ∈ l' /\ x ∉ l))
    by (intros l l' HH (x & ? & ?); auto).
  unfold fillable. destruct j; simpl in *.
  - destruct (decide (l1 = l2)) as [->|Hne]; [by split_and!; auto|]. apply bind_ok in Hst as (u & Hu & _).
    split; [right; apply sorted_inter_ex; eauto|]. split; right; right; tauto.
  - destruct (decide (l1 = l2)) as [->|Hne]; [by split_and!; auto|].
    apply bind_ok in Hst as (u & Hu & H). destruct (listmap_fill l1 u 0) as [i1 s1] eqn:L1. destruct (listmap_fill l2 u 0) as [i2 s2] eqn:L2.
    apply bind_ok in H as (x1 & Hx1 & H). apply bind_ok in H as (x2 & Hx2 & H).
    apply bind_ok in H as (q1 & Hf1 & H). apply bind_ok in H as (q2 & Hf2 & _).
    destruct (T1 _ _ _ _ _ L1 Hx1 Hf1) as [E1 D1]. destruct (T2 _ _ _ _ _ L2 Hx2 Hf2) as [E2 D2].
    assert (Hs : all_comparable (l1 ++ l2)) by (apply sorted_union_ex; eauto).
    apply sorted_set_ok in Hu as [_ Hin].
    assert (Hun : u = [] -> l1 = [] /\ l2 = []).
    { intros ->. split; apply elem_of_nil_inv; intros x Hx; [eapply (not_elem_of_nil x), Hin, elem_of_app; by left|
        eapply (not_elem_of_nil x), Hin, elem_of_app; by right]. }
    split; [right; split; [done|]|].
    + split; intros ->; [destruct E1 as [?|E]; [done|]|destruct E2 as [?|E]; [done|]]; apply Hun in E as [? ?]; congruence.
    + split; [destruct D1 as [?|[?|Hn]]|destruct D2 as [?|[?|Hn]]]; try tauto; right; right; apply Hsub; intros x Hx; apply Hn, Hin, elem_of_app; tauto.
  - destruct (decide (l1 = l2)) as [->|Hne]; [by split_and!; auto|].
    unfold refill in Hst. destruct (listmap_fill l2 l1 0) as [i2 s2] eqn:L2. apply bind_ok in Hst as (q2 & H & _).
    apply bind_ok in H as (x2 & Hx2 & Hf2). destruct (T2 _ _ _ _ _ L2 Hx2 Hf2) as [E2 D2].
    split; [tauto|]. split; [tauto|]. destruct D2 as [?|[?|Hn]]; [by left|by right; left|right; right; by apply Hsub].
  - destruct (decide (l1 = l2)) as [->|Hne]; [by split_and!; auto|].
    unfold refill in Hst. destruct (listmap_fill l1 l2 0) as [i1 s1] eqn:L1. apply bind_ok in Hst as (q1 & H & _).
    apply bind_ok in H as (x1 & Hx1 & Hf1). destruct (T1 _ _ _ _ _ L1 Hx1 Hf1) as [E1 D1].
    split; [tauto|]. split; [|tauto]. destruct D1 as [?|[?|Hn]]; [by left|by right; left|right; right; by apply Hsub].
  - tauto.
  - done.
Qed.
Lemma align_raw_only y1 y2 j cast js st :
  valid y1 -> valid y2 -> joins_are (lndim y2) j js -> align_raw y1 y2 j cast = Ok st -> axes_joinable cast y1 y2 js.
Proof.
  intros H1 H2 Hjs. unfold align_raw. destruct (decide (lndim y1 <> lndim y2)) as [|Hnd]; [done|]. apply dec_stable in Hnd.
  destruct (joins_given _ _ _ Hjs) as [-> Hlen]. cbn [mbind res_bind]. intros HF.
  pose (P := fun k st => align_inv js cast y1 y2 k st /\
    forall i ji l1 l2, i < k -> js !! i = Some ji -> llabel y1 !! i = Some l1 -> llabel y2 !! i = Some l2 ->
      joinable ji l1 l2 /\ fillable cast (ldtype y1) ji l1 l2 /\ fillable cast (ldtype y2) (join_mirror ji) l2 l1).
  assert (HP : P (lndim y2) st).
  { eapply (foldM_seq_inv P); [| |exact HF].
    - split; [by apply align_inv_0|]. intros; lia.
    - intros k s s' Hk [Hinv Hall] Hs. split; [by eapply align_inv_run|]. intros i ji l1 l2 Hi Hji Hl1 Hl2.
      destruct (decide (i = k)) as [->|]; [by eapply align_step_only|]. apply (Hall i); try done. lia. }
  destruct HP as [_ Hall]. intros i ji l1 l2 Hji Hl1 Hl2. apply (Hall i); try done. rewrite <-Hlen. by eapply lookup_lt_Some.
Qed.
Lemma align_raw_ok y1 y2 j cast js :
  valid y1 -> valid y2 -> lndim y1 = lndim y2 -> joins_are (lndim y2) j js ->
  (forall i ji l1 l2, js !! i = Some ji -> llabel y1 !! i = Some l1 -> llabel y2 !! i = Some l2 -> joinable ji l1 l2) ->
  cast = true \/ missing_dtype (ldtype y1) = ldtype y1 /\ missing_dtype (ldtype y2) = ldtype y2 ->
  exists st, align_raw y1 y2 j cast = Ok st.
Proof.
  intros H1 H2 Hnd Hjs Hjo Hdt. apply (align_raw_ex y1 y2 j cast js); try done. intros i ji l1 l2 Hji Hl1 Hl2. unfold fillable.
  split; [by eapply Hjo|]. tauto.
Qed.

Lemma align_iff y1 y2 j cast js :
  valid y1 -> valid y2 -> lndim y1 = lndim y2 -> joins_are (lndim y2) j js ->
  (exists z1 z2, align y1 y2 j cast = Ok (z1, z2)) <-> axes_joinable cast y1 y2 js.
Proof.
  intros H1 H2 Hnd Hjs. split.
  { intros (z1 & z2 & H). unfold align in H. apply bind_ok in H as (st & Hst & _). by eapply align_raw_only. }
  intros Hjo. destruct (align_raw_ex y1 y2 j cast js) as [st Hst]; [done..|].
  unfold align. rewrite Hst. simpl.
  apply align_raw_inv in Hst as (_ & js' & Hjs' & w1 & w2 & Hx1 & Hx2 & Hal & _ & _ & HC & Hk1 & Hk2 & _ & _ & Hlen & Hlab); [|done..].
  pose proof Hal as (Hr1 & Hr2 & Hl1 & Hl2 & Hlt & _).
  rewrite (own_label_ok y1 w1), (own_label_ok y2 w2); [by eexists _, _|..].
  - rewrite Hl2, valid_ndim by done. done.
  - intros i o Ho. specialize (Hlab i o Ho). destruct o; by destruct Hlab.
  - rewrite Hl1, valid_ndim by done. lia.
  - intros i o Ho. specialize (Hlab i o Ho). destruct o; by destruct Hlab.
Qed.
Lemma align_ok y1 y2 j cast js :
  valid y1 -> valid y2 -> lndim y1 = lndim y2 -> joins_are (lndim y2) j js ->
  (forall i ji l1 l2, js !! i = Some ji -> llabel y1 !! i = Some l1 -> llabel y2 !! i = Some l2 -> joinable ji l1 l2) ->
  cast = true \/ missing_dtype (ldtype y1) = ldtype y1 /\ missing_dtype (ldtype y2) = ldtype y2 ->
  exists z1 z2, align y1 y2 j cast = Ok (z1, z2).
Proof.
  intros H1 H2 Hnd Hjs Hjo Hdt. apply (align_iff y1 y2 j cast js); try done. intros i ji l1 l2 Hji Hl1 Hl2. unfold fillable.
  split; [by eapply Hjo|]. tauto.
Qed.

Lemma align_ndim y1 y2 j cast : lndim y1 <> lndim y2 -> align y1 y2 j cast = Err ValueError.
Proof. intros. unfold align, align_raw. by rewrite decide_True. Qed.
Lemma align_join_length y1 y2 js cast : lndim y1 = lndim y2 -> length js <> lndim y2 -> align y1 y2 (JList js) cast = Err ValueError.
Proof. intros. unfold align, align_raw. rewrite decide_False by tauto. by rewrite decide_True. Qed.
Lemma align_join_type y1 y2 cast : lndim y1 = lndim y2 -> align y1 y2 JOther cast = Err TypeError.
Proof. intros. unfold align, align_raw. by rewrite decide_False by tauto. Qed.

(** ** The alignment of the operators is the inner join *)

Definition res_rel {A B} (R : A -> B -> Prop) (a : res A) (b : res B) : Prop :=
  match a, b with Ok a, Ok b => R a b | Err e, Err e' => e = e' | _, _ => False end.
Lemma res_rel_bind {A B C D} (R : A -> B -> Prop) (S : C -> D -> Prop) a b f g :
  res_rel R a b -> (forall x y, R x y -> res_rel S (f x) (g y)) -> res_rel S (a ≫= f) (b ≫= g).
Proof. destruct a, b; simpl; try done; auto. Qed.
Lemma res_rel_refl {A} (a : res A) : res_rel eq a a.
Proof. by destruct a. Qed.
Lemma foldM_sim {S T X} (R : S -> T -> Prop) (f : S -> X -> res S) (g : T -> X -> res T) l s t :
  (forall s t x, R s t -> res_rel R (f s x) (g t x)) -> R s t -> res_rel R (foldM f s l) (foldM g t l).
Proof.
  intros Hfg. revert s t. induction l as [|x l IH]; intros s t Hst; [done|]. simpl.
  specialize (Hfg s t x Hst). destruct (f s x), (g t x); simpl in *; try done. by apply IH.
Qed.

Lemma op_align_sim y1 y2 : lndim y1 = lndim y2 ->
  res_rel (fun p st => exists v1 v2, st = AlignSt p.1.1 None v1 p.1.2 None v2 (Some <$> p.2))
    (op_align y1 y2) (align_raw y1 y2 (JOne JInner) true).
Proof.
  intros Hnd. unfold op_align, align_raw. rewrite !decide_False by tauto. simpl. rewrite Hnd.
  set (n := lndim y2). assert (Hn : forall k, k ∈ seq 0 n -> replicate n JInner !! k = Some JInner).
  { intros k Hk. apply elem_of_seq in Hk. apply lookup_replicate. split; [done|lia]. }
  generalize dependent (replicate n JInner). intros js Hn. revert Hn. generalize (seq 0 n). intros ks.
  assert (H0 : exists v1 v2, AlignSt (lx y1) None true (lx y2) None true [] = AlignSt (lx y1) None v1 (lx y2) None v2 (Some <$> [])) by eauto.
  revert H0. generalize (AlignSt (lx y1) None true (lx y2) None true []). generalize (@nil (list lab)).
  generalize (lx y1) (lx y2).
  induction ks as [|k ks IH]; intros x1 x2 label st (v1 & v2 & ->) Hn; [simpl; by eauto|].
  simpl. rewrite (Hn k) by left.
  destruct (llabel y1 !! k) as [l1|]; [|done]. destruct (llabel y2 !! k) as [l2|]; [|done]. simpl.
  destruct (decide (l1 = l2)); simpl.
  - apply IH; [|intros; apply Hn; by right]. rewrite fmap_app. by eauto.
  - destruct (sorted_inter l1 l2) as [u|]; simpl; [|done]. destruct (listmap l1 u false) as [i1|]; simpl; [|done].
    destruct (listmap l2 u false) as [i2|]; simpl; [|done].
    destruct (nda_take x1 _ k) as [x1'|]; simpl; [|done]. destruct (nda_take x2 _ k) as [x2'|]; simpl; [|done].
    apply IH; [|intros; apply Hn; by right]. rewrite fmap_app. by eauto.
Qed.

Lemma own_label_Some lar label : own_label lar (Some <$> label) = Ok label.
Proof.
  unfold own_label. apply mapR_ok. apply Forall2_same_length_lookup_2.
  - rewrite zip_with_length, seq_length, fmap_length. lia.
  - intros i [n o] r Hi Hr. apply lookup_zip_with_Some in Hi as (n' & o' & [= -> ->] & Hn & Ho).
    rewrite list_lookup_fmap, Hr in Ho. simpl in Ho. injection Ho as <-. done.
Qed.

Lemma op_align_align y1 y2 x1 x2 label :
  op_align y1 y2 = Ok (x1, x2, label) ->
  lndim y1 = lndim y2 /\ align y1 y2 (JOne JInner) true = Ok (Larry x1 label, Larry x2 label).
Proof.
  intros H. destruct (decide (lndim y1 = lndim y2)) as [Hnd|].
  2:{ unfold op_align in H. by rewrite decide_True in H. }
  split; [done|]. pose proof (op_align_sim y1 y2 Hnd) as HS. rewrite H in HS.
  unfold align. destruct (align_raw _ _ _ _) as [st|]; [|done]. simpl in HS. destruct HS as (v1 & v2 & ->). simpl.
  by rewrite !own_label_Some.
Qed.

(** The cells after the alignment: exactly those in both operands. *)
Lemma op_align_spec y1 y2 x1 x2 label :
  valid y1 -> valid y2 -> op_align y1 y2 = Ok (x1, x2, label) ->
  lndim y1 = lndim y2 /\
  valid (Larry x1 label) /\ valid (Larry x2 label) /\
  nd_dtype x1 = ldtype y1 /\ nd_dtype x2 = ldtype y2 /\
  length label = length (llabel y1) /\
  (forall i l1 l2 r, llabel y1 !! i = Some l1 -> llabel y2 !! i = Some l2 -> label !! i = Some r -> inter_label l1 l2 r) /\
  (forall ls, in_grid label ls <-> in_grid (llabel y1) ls /\ in_grid (llabel y2) ls) /\
  (forall ls, in_grid label ls -> cell (Larry x1 label) ls = cell y1 ls /\ cell (Larry x2 label) ls = cell y2 ls).
Proof.
  intros H1 H2 [Hnd H]%op_align_align.
  apply align_spec in H as (_ & Hr1 & Hr2 & Hl1 & Hl2 & (js & Hjs & Hlt) & _ & Hk1 & Hk2); [|done..].
  simpl in *. subst js.
  assert (HI : forall i l1 l2 r, llabel y1 !! i = Some l1 -> llabel y2 !! i = Some l2 -> label !! i = Some r -> inter_label l1 l2 r).
  { intros i l1 l2 r Ha Hb Hc. destruct (Hlt i l1 l2 r r) as (ji & Hji & HJ); try done.
    apply lookup_replicate in Hji as [-> _]. by destruct HJ. }
  assert (HIn : forall i l1 l2 r, llabel y1 !! i = Some l1 -> llabel y2 !! i = Some l2 -> label !! i = Some r ->
    forall u, u ∈ r <-> u ∈ l1 /\ u ∈ l2).
  { intros i l1 l2 r Ha Hb Hc u. specialize (HI _ _ _ _ Ha Hb Hc). unfold inter_label in HI.
    destruct (decide (l1 = l2)) as [->|]; [subst; tauto|]. apply HI. }
  assert (Hlen : length (llabel y1) = length (llabel y2)) by congruence.
  assert (G : forall ls, in_grid label ls <-> in_grid (llabel y1) ls /\ in_grid (llabel y2) ls).
  { intros ls. rewrite !in_grid_alt. split.
    - intros [HL HG]. split; (split; [congruence|]); intros i u l Hu Hl.
      + destruct (lookup_lt_is_Some_2 label i) as [r Hr]; [rewrite Hl1; by eapply lookup_lt_Some|].
        destruct (lookup_lt_is_Some_2 (llabel y2) i) as [l2 Hl2']; [rewrite <-Hlen; by eapply lookup_lt_Some|].
        apply (HIn i l l2 r); [done..|]. by eapply HG.
      + destruct (lookup_lt_is_Some_2 label i) as [r Hr]; [rewrite Hl2; by eapply lookup_lt_Some|].
        destruct (lookup_lt_is_Some_2 (llabel y1) i) as [l2 Hl2']; [rewrite Hlen; by eapply lookup_lt_Some|].
        apply (HIn i l2 l r); [done..|]. by eapply HG.
    - intros [[HL1 HG1] [HL2 HG2]]. split; [congruence|]. intros i u r Hu Hr.
      destruct (lookup_lt_is_Some_2 (llabel y1) i) as [l1 Ha]; [rewrite <-Hl1; by eapply lookup_lt_Some|].
      destruct (lookup_lt_is_Some_2 (llabel y2) i) as [l2 Hb]; [rewrite <-Hl2; by eapply lookup_lt_Some|].
      apply (HIn i l1 l2 r); [done..|]. split; [by eapply HG1|by eapply HG2]. }
  assert (D1 : nd_dtype x1 = ldtype y1).
  { apply Hk1. intros i l r Hl Hr u Hu. simpl in Hr.
    destruct (lookup_lt_is_Some_2 (llabel y2) i) as [l2 Hb]; [rewrite <-Hl2; by eapply lookup_lt_Some|].
    by apply (HIn i l l2 r). }
  assert (D2 : nd_dtype x2 = ldtype y2).
  { apply Hk2. intros i l r Hl Hr u Hu. simpl in Hr.
    destruct (lookup_lt_is_Some_2 (llabel y1) i) as [l2 Hb]; [rewrite <-Hl1; by eapply lookup_lt_Some|].
    by apply (HIn i l2 l r). }
  destruct Hr1 as (V1 & _ & _ & C1). destruct Hr2 as (V2 & _ & _ & C2).
  split_and!; try done. intros ls Hls. simpl in *. destruct (proj1 (G ls) Hls) as [G1 G2].
  apply (valid_cell_grid y1 ls H1) in G1 as [v1 E1]. apply (valid_cell_grid y2 ls H2) in G2 as [v2 E2].
  split; [rewrite (C1 ls Hls), E1|rewrite (C2 ls Hls), E2]; f_equal; apply cast_to_typed.
  - change (has_dtype (nd_dtype x1) v1 = true). rewrite D1. by eapply valid_cell_typed.
  - change (has_dtype (nd_dtype x2) v2 = true). rewrite D2. by eapply valid_cell_typed.
Qed.

Lemma op_align_iff y1 y2 :
  valid y1 -> valid y2 -> lndim y1 = lndim y2 ->
  (exists p, op_align y1 y2 = Ok p) <->
  (forall i l1 l2, llabel y1 !! i = Some l1 -> llabel y2 !! i = Some l2 ->
     l1 = l2 \/ all_comparable (filter (fun x => x ∈ l2) l1)).
Proof.
  intros H1 H2 Hnd. pose proof (op_align_sim y1 y2 Hnd) as HS. split.
  - intros [p Hp]. rewrite Hp in HS. destruct (align_raw y1 y2 (JOne JInner) true) as [st|] eqn:Hst; [|done].
    intros i l1 l2 Ha Hb. apply (align_raw_only y1 y2 _ _ (replicate (lndim y2) JInner) _ H1 H2) in Hst; [|done].
    destruct (Hst i JInner l1 l2) as (Hj & _); try done. apply lookup_replicate. split; [done|].
    rewrite <-valid_ndim by done. by eapply lookup_lt_Some.
  - intros Hs. destruct (align_raw_ok y1 y2 (JOne JInner) true (replicate (lndim y2) JInner)) as [st Hst]; try done; [|by left|].
    { intros i ji l1 l2 Hi Ha Hb. apply lookup_replicate in Hi as [-> _]. by eapply Hs. }
    rewrite Hst in HS. destruct (op_align y1 y2); [by eauto|done].
Qed.
Lemma op_align_ok y1 y2 :
  valid y1 -> valid y2 -> lndim y1 = lndim y2 ->
  (forall i l1 l2, llabel y1 !! i = Some l1 -> llabel y2 !! i = Some l2 ->
     l1 = l2 \/ all_comparable (filter (fun x => x ∈ l2) l1)) ->
  exists p, op_align y1 y2 = Ok p.
Proof. intros. by apply op_align_iff. Qed.
Lemma op_align_ndim y1 y2 : lndim y1 <> lndim y2 -> op_align y1 y2 = Err IndexError.
Proof. intros. unfold op_align. by rewrite decide_True. Qed.
