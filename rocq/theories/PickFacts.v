(** Arrays from which positions along one axis are picked, and functions that
    commute with that. *)
From Verif Require Export SpecCommute SessionFacts.

Definition pick_at (ps : list nat) (a0 : nat) (idx : list nat) : option (list nat) :=
  k ← idx !! a0; p ← ps !! k; Some (<[a0 := p]> idx).
(** [b] has the elements of [a] at the positions [ps] of axis [a0]. *)
Definition picks {A} (ps : list nat) (a0 : nat) (a b : arr A) : Prop :=
  arr_wf a /\ arr_wf b /\ (exists n, shape a !! a0 = Some n /\ Forall (fun p => p < n) ps) /\
  shape b = <[a0 := length ps]> (shape a) /\
  forall idx, in_range (shape b) idx -> aget b idx = (pick_at ps a0 idx ≫= aget a).

Lemma pick_at_range ps a0 sh n idx : sh !! a0 = Some n -> Forall (fun p => p < n) ps -> in_range (<[a0 := length ps]> sh) idx ->
  exists k p, idx !! a0 = Some k /\ ps !! k = Some p /\ pick_at ps a0 idx = Some (<[a0 := p]> idx) /\ in_range sh (<[a0 := p]> idx).
Proof.
  intros Hn Hps Hr. assert (Hlen : length idx = length sh) by (apply in_range_length in Hr; by rewrite insert_length in Hr).
  assert (a0 < length sh) as Ha by (by eapply lookup_lt_Some). destruct (lookup_lt_is_Some_2 idx a0) as [k Hk]; [lia|].
  assert (k < length ps) as Hkl by (eapply in_range_lookup; [exact Hr|by apply list_lookup_insert|done]).
  destruct (lookup_lt_is_Some_2 ps k Hkl) as [p Hp]. exists k, p. split_and!; [done|done| |].
  - unfold pick_at. rewrite Hk. simpl. by rewrite Hp.
  - eapply in_range_insert_inv; [exact Hr|done|]. by eapply Forall_lookup_1 in Hps.
Qed.
Lemma pick_at_insert ps a0 ax k idx i : ax <> a0 -> pick_at ps a0 idx = Some i -> pick_at ps a0 (<[ax := k]> idx) = Some (<[ax := k]> i).
Proof.
  unfold pick_at. intros Hne. rewrite list_lookup_insert_ne by done. destruct (idx !! a0) as [q|]; simpl; [|done].
  destruct (ps !! q) as [p|]; simpl; [|done]. intros [= <-]. f_equal. by apply list_insert_commute.
Qed.
Lemma pick_at_other ps a0 ax idx i : ax <> a0 -> pick_at ps a0 idx = Some i -> i !! ax = idx !! ax.
Proof.
  unfold pick_at. intros Hne. destruct (idx !! a0) as [q|]; simpl; [|done].
  destruct (ps !! q) as [p|]; simpl; [|done]. intros [= <-]. by apply list_lookup_insert_ne.
Qed.

Lemma picks_build_shape {B} ps a0 sh n (g g' : list nat -> option B) b :
  sh !! a0 = Some n -> Forall (fun p => p < n) ps -> build sh g = Some b ->
  (forall idx i, in_range (<[a0 := length ps]> sh) idx -> pick_at ps a0 idx = Some i -> in_range sh i -> g' idx = g i) ->
  exists b', build (<[a0 := length ps]> sh) g' = Some b' /\ picks ps a0 b b'.
Proof.
  intros Hn Hps Hb Hgg. apply build_Some in Hb as (Hsb & Hwb & Hgb).
  assert (Hr : forall idx, in_range (<[a0 := length ps]> sh) idx -> exists i, pick_at ps a0 idx = Some i /\ in_range sh i).
  { intros idx Hr. destruct (pick_at_range ps a0 _ n idx Hn Hps Hr) as (k & p & _ & _ & H1 & H2). eauto. }
  destruct (proj2 (build_is_Some (<[a0 := length ps]> sh) g')) as [b' Hb'].
  { intros idx Hi. destruct (Hr idx Hi) as (i & Hpi & Hri). rewrite (Hgg idx i Hi Hpi Hri). rewrite <-Hgb by done.
    apply get_is_Some; [done|by rewrite Hsb]. }
  exists b'. split; [done|]. apply build_Some in Hb' as (Hsb' & Hwb' & Hgb'). split_and!; [done|done| | |].
  - exists n. by rewrite Hsb.
  - by rewrite Hsb', Hsb.
  - intros idx Hi. rewrite Hsb' in Hi. rewrite Hgb' by done. destruct (Hr idx Hi) as (i & Hpi & Hri). rewrite Hpi. simpl.
    rewrite Hgb by done. by apply Hgg.
Qed.
Lemma picks_build {A B} ps a0 (a a' : arr A) (g g' : list nat -> option B) b :
  picks ps a0 a a' -> build (shape a) g = Some b ->
  (forall idx i, in_range (shape a') idx -> pick_at ps a0 idx = Some i -> in_range (shape a) i -> g' idx = g i) ->
  exists b', build (shape a') g' = Some b' /\ picks ps a0 b b'.
Proof. intros (Hwf & Hwf' & (n & Hn & Hps) & Hs & Hg) Hb. rewrite Hs. by eapply picks_build_shape. Qed.

Lemma picks_amap {A B} ps a0 (a a' : arr A) (f : A -> B) : picks ps a0 a a' -> picks ps a0 (amap f a) (amap f a').
Proof.
  intros (Hwf & Hwf' & Hn & Hs & Hg). split_and!; [by apply amap_wf|by apply amap_wf|done|done|].
  intros idx Hr. rewrite get_amap, (Hg idx Hr). destruct (pick_at ps a0 idx) as [i|]; simpl; [|done]. by rewrite get_amap.
Qed.
Lemma picks_shape {A} ps a0 (a a' : arr A) : picks ps a0 a a' -> shape a' = <[a0 := length ps]> (shape a).
Proof. by intros (_ & _ & _ & ? & _). Qed.
Lemma picks_shape_ne {A} ps a0 (a a' : arr A) ax : picks ps a0 a a' -> ax <> a0 -> shape a' !! ax = shape a !! ax.
Proof. intros (_ & _ & _ & -> & _) H. by apply list_lookup_insert_ne. Qed.
Lemma picks_ndim {A} ps a0 (a a' : arr A) : picks ps a0 a a' -> length (shape a') = length (shape a).
Proof. intros (_ & _ & _ & -> & _). by rewrite insert_length. Qed.

Lemma mapM_ext_elem {A B} (f g : A -> option B) l : (forall x, x ∈ l -> f x = g x) -> mapM f l = mapM g l.
Proof.
  induction l as [|x l IH]; intros H; [done|]. cbn [mapM]. rewrite H by constructor. rewrite IH; [done|].
  intros y Hy. apply H. by constructor.
Qed.
Lemma pick_lane {A} ps a0 (a a' : arr A) ax idx i : picks ps a0 a a' -> ax <> a0 -> ax < length (shape a) ->
  in_range (shape a') idx -> pick_at ps a0 idx = Some i -> lane a' ax idx = lane a ax i.
Proof.
  intros (Hwf & Hwf' & (n & Hn & Hps) & Hs & Hg) Hne Hax Hr Hi. unfold lane, axlen. rewrite Hs, list_lookup_insert_ne by done.
  destruct (shape a !! ax) as [m|] eqn:Em; simpl; [|done]. apply mapM_ext_elem. intros k Hk. apply elem_of_seq in Hk as [_ Hk].
  rewrite Hg.
  - by rewrite (pick_at_insert ps a0 ax k idx i) by done.
  - rewrite <-(list_insert_id (shape a') ax m) by (by rewrite Hs, list_lookup_insert_ne). apply in_range_insert; [done|lia].
Qed.
Lemma picks_along {A B} ps a0 (a a' : arr A) (f : list A -> list B) ax b :
  picks ps a0 a a' -> ax <> a0 -> along f a ax = Some b -> ax < length (shape a) ->
  exists b', along f a' ax = Some b' /\ picks ps a0 b b'.
Proof.
  intros Hp Hne Hb Hax. unfold along in *. eapply picks_build; [exact Hp|exact Hb|]. intros idx i Hr Hi Hri. cbn beta.
  rewrite (pick_lane ps a0 a a' ax idx i) by done. by rewrite (pick_at_other ps a0 ax idx i).
Qed.

Lemma insert_at_lookup_lt {A} ax (x : A) l j : j < ax -> ax <= length l -> insert_at ax x l !! j = l !! j.
Proof. intros H1 H2. unfold insert_at. rewrite lookup_app_l by (rewrite take_length; lia). by rewrite lookup_take. Qed.
Lemma insert_at_lookup_gt {A} ax (x : A) l j : ax <= j -> ax <= length l -> insert_at ax x l !! S j = l !! j.
Proof.
  intros H1 H2. unfold insert_at. rewrite lookup_app_r by (rewrite take_length; lia). rewrite take_length, min_l by lia.
  replace (S j - ax) with (S (j - ax)) by lia. simpl. rewrite lookup_drop. f_equal. lia.
Qed.
Lemma insert_at_less {A} ax (x : A) l a0 : ax <> a0 -> ax <= length l -> insert_at ax x l !! a0 = l !! axis_left ax a0.
Proof.
  intros Hne Hl. unfold axis_left. case_decide; [by apply insert_at_lookup_lt|].
  destruct a0 as [|a0]; [lia|]. rewrite insert_at_lookup_gt by lia. f_equal. lia.
Qed.
Lemma list_ext_len {A} (l k : list A) : length l = length k -> (forall i, i < length l -> l !! i = k !! i) -> l = k.
Proof. intros Hl H. apply list_eq. intros i. destruct (decide (i < length l)); [by apply H|]. rewrite !lookup_ge_None_2 by lia. done. Qed.
Lemma insert_at_insert {A} ax (x y : A) l a0 : ax <> a0 -> ax <= length l -> a0 <= length l ->
  <[a0 := y]> (insert_at ax x l) = insert_at ax x (<[axis_left ax a0 := y]> l).
Proof.
  intros Hne Hl Ha. apply list_ext_len; [rewrite insert_length, !insert_at_length; rewrite ?insert_length; lia|].
  intros j Hj. rewrite insert_length, insert_at_length in Hj by done.
  assert (axis_left ax a0 < length l) as Hla by (unfold axis_left; case_decide; lia).
  destruct (decide (j = ax)) as [->|Hja].
  - rewrite list_lookup_insert_ne by done. rewrite !insert_at_lookup; rewrite ?insert_length; done.
  - rewrite (insert_at_less ax x (<[axis_left ax a0:=y]> l) j) by (rewrite ?insert_length; lia).
    destruct (decide (j = a0)) as [->|Hj0].
    + rewrite !list_lookup_insert; [done|done|rewrite insert_at_length; lia].
    + rewrite list_lookup_insert_ne by done. rewrite insert_at_less by lia. rewrite list_lookup_insert_ne; [done|].
      unfold axis_left. repeat case_decide; lia.
Qed.
Lemma remove_at_less {A} ax (l : list A) a0 : ax <> a0 -> remove_at ax l !! axis_left ax a0 = l !! a0.
Proof.
  intros Hne. unfold remove_at, axis_left. case_decide; [by rewrite lookup_delete_lt|].
  rewrite lookup_delete_ge by lia. f_equal. lia.
Qed.
Lemma remove_at_insert_ne {A} ax (l : list A) a0 y : ax <> a0 -> ax < length l -> a0 < length l ->
  remove_at ax (<[a0 := y]> l) = <[axis_left ax a0 := y]> (remove_at ax l).
Proof.
  intros Hne Hax Ha. destruct (lookup_lt_is_Some_2 l ax Hax) as [x Hx].
  rewrite <-(insert_remove_at ax x l Hx) at 1.
  assert (length (remove_at ax l) = pred (length l)) as Hlr by (by apply remove_at_length).
  rewrite insert_at_insert by lia. rewrite remove_insert_at; [done|]. rewrite insert_length. lia.
Qed.
Lemma picks_reduce {A B} ps a0 (a a' : arr A) (f : list A -> B) ax b :
  picks ps a0 a a' -> ax <> a0 -> reduce f a ax = Some b -> ax < length (shape a) ->
  exists b', reduce f a' ax = Some b' /\ picks ps (axis_left ax a0) b b'.
Proof.
  intros Hp Hne Hb Hax. pose proof Hp as (Hwf & Hwf' & (n & Hn & Hps) & Hs & Hg).
  assert (Ha0 : a0 < length (shape a)) by (by eapply lookup_lt_Some).
  destruct (reduce_Some f a b ax Hwf Hb) as (Hsb & Hwb & Hgb).
  destruct (reduce_is_Some f a' ax Hwf') as [b' Hb']; [apply lookup_lt_is_Some_2; by rewrite Hs, insert_length|].
  exists b'. split; [done|]. destruct (reduce_Some f a' b' ax Hwf' Hb') as (Hsb' & Hwb' & Hgb').
  assert (Hlr : length (remove_at ax (shape a)) = pred (length (shape a))) by (by apply remove_at_length).
  split_and!; [done|done| | |].
  - exists n. rewrite Hsb, remove_at_less; done.
  - rewrite Hsb', Hsb, Hs. by apply remove_at_insert_ne.
  - intros idx Hr. rewrite Hsb' in Hr. rewrite (Hgb' idx Hr). rewrite Hs, remove_at_insert_ne in Hr by done.
    destruct (pick_at_range ps (axis_left ax a0) (remove_at ax (shape a)) n idx) as (k & p & Hk & Hpk & Hpi & Hri); [by rewrite remove_at_less|done|done|].
    rewrite Hpi. simpl. rewrite Hgb by done. f_equal.
    assert (length idx = pred (length (shape a))) as Hli by (apply in_range_length in Hr; rewrite insert_length in Hr; congruence).
    destruct (shape a !! ax) as [m|] eqn:Em; [|apply lookup_ge_None in Em; lia].
    destruct (decide (m = 0)) as [->|Hm].
    { unfold lane, axlen. rewrite Hs, list_lookup_insert_ne by done. rewrite Em. done. }
    eapply pick_lane; [exact Hp|done|done| |].
    + rewrite Hs. rewrite <-(insert_remove_at ax m (<[a0:=length ps]> (shape a))) by (by rewrite list_lookup_insert_ne).
      rewrite remove_at_insert_ne by done. apply in_range_insert_at; [rewrite insert_length; lia|rewrite insert_length; lia|]. split; [lia|done].
    + unfold pick_at. rewrite insert_at_less by lia. rewrite Hk. simpl. rewrite Hpk. simpl. f_equal. apply insert_at_insert; lia.
Qed.

(** Two arrays of one shape. *)
Lemma picks_azip {A B C} ps a0 (a a' : arr A) (b b' : arr B) (f : A -> B -> C) :
  picks ps a0 a a' -> picks ps a0 b b' -> shape b = shape a -> picks ps a0 (azip f a b) (azip f a' b').
Proof.
  intros (Hwf & Hwf' & Hn & Hs & Hg) (Hwb & Hwb' & Hnb & Hsb & Hgb) Hsh.
  assert (Hsh' : shape b' = shape a') by congruence.
  split_and!; [by apply azip_wf|by apply azip_wf|done|done|].
  intros idx Hr. change (shape (azip f a' b')) with (shape a') in Hr. rewrite !get_azip by done. rewrite (Hg idx Hr), Hgb by (by rewrite Hsh').
  destruct (pick_at ps a0 idx) as [i|]; simpl; [|done]. by rewrite !get_azip.
Qed.

Lemma picks_take_pos {A} ps a0 (a a' : arr A) ids ax b : picks ps a0 a a' -> ax <> a0 -> take_pos a ids ax = Some b ->
  exists b', take_pos a' ids ax = Some b' /\ picks ps a0 b b'.
Proof.
  intros Hp Hne H. pose proof Hp as (_ & _ & (n & Hn & Hps) & Hs & Hg). unfold take_pos in *. unfold axlen in *.
  rewrite (picks_shape_ne _ _ _ _ _ Hp Hne). destruct (shape a !! ax) as [m|] eqn:Em; simpl in *; [|done].
  case_decide as Hids; [|done]. unfold gather in *. rewrite Hs. rewrite list_insert_commute by done.
  eapply picks_build_shape; [by rewrite list_lookup_insert_ne|done|exact H|]. intros idx i Hr Hi Hri. cbn beta.
  rewrite (pick_at_other ps a0 ax idx i) by done. destruct (idx !! ax) as [k|] eqn:Ek; simpl; [|done].
  destruct (ids !! k) as [q|] eqn:Eq; simpl; [|done].
  rewrite Hg; [by rewrite (pick_at_insert ps a0 ax q idx i)|]. rewrite Hs.
  rewrite list_insert_commute in Hr by done. eapply in_range_insert_inv; [exact Hr|by rewrite list_lookup_insert_ne|].
  by eapply Forall_lookup_1 in Hids.
Qed.
