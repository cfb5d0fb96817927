(** Two calls that do the same as one: shifts, orders, bounds, joins. *)
From Verif Require Import BaseFacts LarryFacts SpecFacts NumFacts AlignFacts RankLarry PropsLarry PropsAlign PropsNumeric.
From Verif Require Import StepsFacts.

(** * lag *)
Theorem lag_lag_pos y j k a z1 z2 : valid y -> 0 < j -> 0 < k ->
  lag y (Z.of_nat j) (Some a) = Ok z1 -> lag z1 (Z.of_nat k) (Some a) = Ok z2 -> lag y (Z.of_nat (j + k)) (Some a) = Ok z2.
Proof.
  intros Hv Hj Hk H1 H2.
  assert (exists ax, axis_is y a ax) as [ax Hax].
  { unfold lag in H1. cbn [of_opt mbind res_bind] in H1. rewrite decide_True in H1 by lia. destruct (py_axis y a) as [ax|] eqn:E; [|done]. exists ax. by apply py_axis_is. }
  assert (Hlt : ax < length (llabel y)) by apply Hax.
  destruct (lookup_lt_is_Some_2 _ _ Hlt) as [l Hl].
  destruct (C31_lag_positive y j a ax l Hv Hj Hax Hl) as (w1 & E1 & Hv1 & Hd1 & Hl1 & Hc1). rewrite E1 in H1. injection H1 as ->.
  assert (axis_is z1 a ax) as Hax1 by (apply (axis_is_lab y); [rewrite Hl1; apply insert_length|done]).
  assert (Hl1' : llabel z1 !! ax = Some (drop j l)) by (rewrite Hl1; by apply list_lookup_insert).
  destruct (C31_lag_positive z1 k a ax _ Hv1 Hk Hax1 Hl1') as (w2 & E2 & Hv2 & Hd2 & Hl2 & Hc2). rewrite E2 in H2. injection H2 as ->.
  destruct (C31_lag_positive y (j + k) a ax l Hv ltac:(lia) Hax Hl) as (w & E & Hvw & Hdw & Hlw & Hcw). rewrite E. f_equal.
  assert (EL : llabel w = llabel z2) by (rewrite Hlw, Hl2, Hl1, list_insert_insert, drop_drop; done).
  apply larry_ext; [done|done|congruence|done|]. intros ls Hg. rewrite Hlw in Hg.
  destruct (in_grid_lookup _ _ ax (drop (j + k) l) Hg) as (new & Hnew & Hin); [by apply list_lookup_insert|].
  apply elem_of_list_lookup in Hin as [i Hi]. rewrite lookup_drop in Hi.
  assert (i + (j + k) < length l) as Hb by (apply lookup_lt_Some in Hi; lia).
  destruct (lookup_lt_is_Some_2 l i) as [old Hold]; [lia|]. destruct (lookup_lt_is_Some_2 l (i + j)) as [mid Hmid]; [lia|].
  rewrite (Hcw ls i new old); [|done|rewrite <-Hi; f_equal; lia|done].
  rewrite (Hc2 ls i new mid); [|done|rewrite lookup_drop, <-Hi; f_equal; lia|rewrite lookup_drop, <-Hmid; f_equal; lia].
  rewrite (Hc1 _ i mid old); [by rewrite list_insert_insert| |done|done]. apply list_lookup_insert. by eapply lookup_lt_Some.
Qed.
Theorem lag_lag_neg y j k a z1 z2 : valid y -> 0 < j -> 0 < k ->
  lag y (- Z.of_nat j) (Some a) = Ok z1 -> lag z1 (- Z.of_nat k) (Some a) = Ok z2 -> lag y (- Z.of_nat (j + k)) (Some a) = Ok z2.
Proof.
  intros Hv Hj Hk H1 H2.
  assert (exists ax, axis_is y a ax) as [ax Hax].
  { unfold lag in H1. cbn [of_opt mbind res_bind] in H1. rewrite decide_False, decide_True in H1 by lia. destruct (py_axis y a) as [ax|] eqn:E; [|done]. exists ax. by apply py_axis_is. }
  assert (Hlt : ax < length (llabel y)) by apply Hax.
  destruct (lookup_lt_is_Some_2 _ _ Hlt) as [l Hl].
  destruct (C31_lag_negative y j a ax l Hv Hj Hax Hl) as (w1 & E1 & Hv1 & Hd1 & Hl1 & Hc1). rewrite E1 in H1. injection H1 as ->.
  assert (axis_is z1 a ax) as Hax1 by (apply (axis_is_lab y); [rewrite Hl1; apply insert_length|done]).
  assert (Hl1' : llabel z1 !! ax = Some (take (length l - j) l)) by (rewrite Hl1; by apply list_lookup_insert).
  destruct (C31_lag_negative z1 k a ax _ Hv1 Hk Hax1 Hl1') as (w2 & E2 & Hv2 & Hd2 & Hl2 & Hc2). rewrite E2 in H2. injection H2 as ->.
  destruct (C31_lag_negative y (j + k) a ax l Hv ltac:(lia) Hax Hl) as (w & E & Hvw & Hdw & Hlw & Hcw). rewrite E. f_equal.
  assert (EL : llabel w = llabel z2).
  { rewrite Hlw, Hl2, Hl1, list_insert_insert, take_length, take_take. f_equal. f_equal. lia. }
  apply larry_ext; [done|done|congruence|done|]. intros ls Hg. rewrite Hlw in Hg.
  destruct (in_grid_lookup _ _ ax (take (length l - (j + k)) l) Hg) as (new & Hnew & Hin); [by apply list_lookup_insert|].
  apply elem_of_list_lookup in Hin as [i Hi]. assert (i < length l - (j + k)) as Hb by (apply lookup_lt_Some in Hi; rewrite take_length in Hi; lia).
  rewrite lookup_take in Hi by done.
  destruct (lookup_lt_is_Some_2 l (i + (j + k))) as [old Hold]; [lia|]. destruct (lookup_lt_is_Some_2 l (i + k)) as [mid Hmid]; [lia|].
  rewrite (Hcw ls i new old) by done.
  rewrite (Hc2 ls i new mid); [|done|rewrite lookup_take by lia; done|rewrite lookup_take by lia; done].
  rewrite (Hc1 _ (i + k) mid old); [by rewrite list_insert_insert| |done|rewrite <-Hold; f_equal; lia]. apply list_lookup_insert. by eapply lookup_lt_Some.
Qed.
(** There and back: what is left is where it was. *)
Theorem lag_back y k a ax l z1 z2 : valid y -> 0 < k -> axis_is y a ax -> llabel y !! ax = Some l ->
  lag y (Z.of_nat k) (Some a) = Ok z1 -> lag z1 (- Z.of_nat k) (Some a) = Ok z2 ->
  ldtype z2 = ldtype y /\ llabel z2 = <[ax := take (length l - 2 * k) (drop k l)]> (llabel y) /\
  forall ls, in_grid (llabel z2) ls -> cell z2 ls = cell y ls.
Proof.
  intros Hv Hk Hax Hl H1 H2. assert (Hlt : ax < length (llabel y)) by apply Hax.
  destruct (C31_lag_positive y k a ax l Hv Hk Hax Hl) as (w1 & E1 & Hv1 & Hd1 & Hl1 & Hc1). rewrite E1 in H1. injection H1 as ->.
  assert (axis_is z1 a ax) as Hax1 by (apply (axis_is_lab y); [rewrite Hl1; apply insert_length|done]).
  assert (Hl1' : llabel z1 !! ax = Some (drop k l)) by (rewrite Hl1; by apply list_lookup_insert).
  destruct (C31_lag_negative z1 k a ax _ Hv1 Hk Hax1 Hl1') as (w2 & E2 & Hv2 & Hd2 & Hl2 & Hc2). rewrite E2 in H2. injection H2 as ->.
  assert (EL : llabel z2 = <[ax := take (length l - 2 * k) (drop k l)]> (llabel y)).
  { rewrite Hl2, Hl1, list_insert_insert, drop_length. f_equal. f_equal. lia. }
  split_and!; [congruence|done|]. intros ls Hg. rewrite EL in Hg.
  destruct (in_grid_lookup _ _ ax (take (length l - 2 * k) (drop k l)) Hg) as (new & Hnew & Hin); [by apply list_lookup_insert|].
  apply elem_of_list_lookup in Hin as [i Hi]. assert (i < length l - 2 * k) as Hb by (apply lookup_lt_Some in Hi; rewrite take_length in Hi; lia).
  rewrite lookup_take in Hi by done.
  destruct (lookup_lt_is_Some_2 (drop k l) (i + k)) as [mid Hmid]; [rewrite drop_length; lia|].
  rewrite (Hc2 ls i new mid) by done. rewrite lookup_drop in Hmid, Hi.
  rewrite (Hc1 _ (i + k) mid new); [| |rewrite <-Hmid; f_equal; lia|rewrite <-Hi; f_equal; lia].
  - rewrite list_insert_insert. by rewrite list_insert_id.
  - apply list_lookup_insert. by eapply lookup_lt_Some.
Qed.

(** * sortaxis, flipaxis *)
Theorem sort_flip y a (r : bool) z : valid y -> sortaxis y (Some a) r = Ok z ->
  exists w, flipaxis z (Some a) = Ok w /\ sortaxis y (Some a) (negb r) = Ok w.
Proof.
  intros Hv H1. destruct (C27_sortaxis _ _ _ _ Hv H1) as (Hvz & Hdz & Hlz & Hcz & Haz).
  destruct (proj1 (C27_sortaxis_succeeds y (Some a) r Hv) (ex_intro _ z H1)) as [Hex Hcmp]. destruct (Hex a eq_refl) as [ax Hax].
  assert (Hlt : ax < length (llabel y)) by apply Hax.
  assert (axis_is z a ax) as Haxz by (by apply (axis_is_lab y)).
  destruct (lookup_lt_is_Some_2 (llabel z) ax) as [l' Hl']; [lia|]. destruct (lookup_lt_is_Some_2 _ _ Hlt) as [l Hl].
  destruct (C28_flipaxis z a ax l' Hvz Haxz Hl') as (w & Ew & Hvw & Hdw & Hlw & Hcw). exists w. split; [done|].
  destruct (proj2 (C27_sortaxis_succeeds y (Some a) (negb r) Hv)) as [u Hu]; [split; done|]. rewrite Hu. f_equal.
  destruct (C27_sortaxis _ _ _ _ Hv Hu) as (Hvu & Hdu & Hlu & Hcu & Hau).
  apply larry_ext; [done|done|congruence| |intros; by rewrite Hcu, Hcw, Hcz].
  apply list_eq_same_length with (length (llabel y)); [rewrite Hlw, insert_length; done|done|]. intros i x x' Hi Hx Hx'.
  destruct (lookup_lt_is_Some_2 _ _ Hi) as [li Hli]. destruct (Hau _ _ _ Hli Hx) as (Hp & Hs & Hn).
  destruct (decide (i = ax)) as [->|Hne].
  - rewrite Hlw, list_lookup_insert in Hx' by lia. apply (inj Some) in Hx'. subst x'. destruct (Haz _ _ _ Hli Hl') as (Hp' & Hs' & _).
    apply (sorted_dir_unique (negb r)).
    + by apply Hs.
    + specialize (Hs' Hax). unfold sorted_dir in *. destruct r; by apply StronglySorted_reverse in Hs'.
    + rewrite Hp, reverse_Permutation. by symmetry.
  - rewrite Hlw, list_lookup_insert_ne in Hx' by done. destruct (Haz _ _ _ Hli Hx') as (_ & _ & Hn').
    assert (~ axis_selected y (Some a) i) as Hns by (intros Hs'; apply Hne; by apply (axis_unique y a)).
    by rewrite Hn, Hn'.
Qed.
(** The order to sort in does not depend on an earlier sort or flip of the axis. *)
Theorem sort_sort y a (r r' : bool) z : valid y -> sortaxis y (Some a) r = Ok z -> sortaxis z (Some a) r' = sortaxis y (Some a) r'.
Proof.
  intros Hv H1. destruct (C27_sortaxis _ _ _ _ Hv H1) as (Hvz & Hdz & Hlz & Hcz & Haz).
  destruct (proj1 (C27_sortaxis_succeeds y (Some a) r Hv) (ex_intro _ z H1)) as [Hex Hcmp]. destruct (Hex a eq_refl) as [ax Hax].
  destruct (proj2 (C27_sortaxis_succeeds y (Some a) r' Hv)) as [u Hu]; [done|]. rewrite Hu.
  assert (Hsel : forall i, axis_selected z (Some a) i <-> axis_selected y (Some a) i).
  { intros i. cbn. split; apply axis_is_lab; done. }
  destruct (proj2 (C27_sortaxis_succeeds z (Some a) r' Hvz)) as [w Hw].
  { split.
    - intros a' [= <-]. exists ax. by apply (axis_is_lab y).
    - intros i l' Hi Hl'. apply Hsel in Hi. destruct (lookup_lt_is_Some_2 (llabel y) i) as [l Hl]; [apply lookup_lt_Some in Hl'; lia|].
      destruct (Haz _ _ _ Hl Hl') as (Hp & _). specialize (Hcmp _ _ Hi Hl). intros p q Hp1 Hq1. apply Hcmp; by rewrite <-Hp. }
  rewrite Hw. f_equal. destruct (C27_sortaxis _ _ _ _ Hv Hu) as (Hvu & Hdu & Hlu & Hcu & Hau). destruct (C27_sortaxis _ _ _ _ Hvz Hw) as (Hvw & Hdw & Hlw & Hcw & Haw).
  apply larry_ext; [done|done|congruence| |intros; by rewrite Hcu, Hcw, Hcz].
  apply list_eq_same_length with (length (llabel y)); [done|lia|]. intros i x x' Hi Hx Hx'.
  destruct (lookup_lt_is_Some_2 _ _ Hi) as [l Hl]. destruct (lookup_lt_is_Some_2 (llabel z) i) as [l' Hl']; [lia|].
  destruct (Haz _ _ _ Hl Hl') as (P1 & _ & N1). destruct (Hau _ _ _ Hl Hx') as (P2 & S2 & N2). destruct (Haw _ _ _ Hl' Hx) as (P3 & S3 & N3).
  destruct (decide (i = ax)) as [->|Hne].
  - apply (sorted_dir_unique r'); [apply S3; by apply Hsel|by apply S2|]. by rewrite P2, P3.
  - assert (~ axis_selected y (Some a) i) as Hns by (intros Hs'; apply Hne; by apply (axis_unique y a)).
    rewrite N3, N1, N2; [done..|]. by rewrite Hsel.
Qed.
