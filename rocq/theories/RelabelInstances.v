(** Relabellings there are. *)
From Verif Require Import SpecRelabel RelabelLarry RelabelProgram OrderFacts LabFacts.

Lemma tuplewise_tup h l : tuplewise h (LTup l) = LTup (tuplewise h <$> l).
Proof. done. Qed.
Lemma tuplewise_atom h x : ~ is_tuple x -> tuplewise h x = h x.
Proof. by destruct x. Qed.
Lemma tuplewise_inverse h k :
  (forall x, ~ is_tuple x -> ~ is_tuple (h x)) -> (forall x, ~ is_tuple x -> k (h x) = x) -> forall x, tuplewise k (tuplewise h x) = x.
Proof.
  intros H1 H2 x. induction x as [z|s|d|hh m s us tz|yy mo d hh m s us tz|l IH] using lab_ind';
    try (solve [rewrite (tuplewise_atom h) by (intros []); rewrite tuplewise_atom by (apply H1; intros []); apply H2; intros []]).
  rewrite !tuplewise_tup. f_equal. rewrite <-list_fmap_compose. induction IH as [|x l Hx Hl IH]; [done|]. rewrite fmap_cons. f_equal; [exact Hx|exact IH].
Qed.
Lemma tuplewise_order h k :
  (forall x, ~ is_tuple x -> ~ is_tuple (h x)) -> (forall x, ~ is_tuple x -> k (h x) = x) ->
  (forall x y, ~ is_tuple x -> ~ is_tuple y -> comparable (h x) (h y) = comparable x y) ->
  (forall x y, ~ is_tuple x -> ~ is_tuple y -> comparable x y = true -> lab_cmp (h x) (h y) = lab_cmp x y) ->
  forall x y, comparable (tuplewise h x) (tuplewise h y) = comparable x y /\
    (comparable x y = true -> lab_cmp (tuplewise h x) (tuplewise h y) = lab_cmp x y).
Proof.
  intros H1 H2 H3 H4 x.
  assert (forall x y, tuplewise h x = tuplewise h y <-> x = y) as Hinj.
  { intros a b. split; [|by intros ->]. intros E. rewrite <-(tuplewise_inverse h k H1 H2 a), E. by apply tuplewise_inverse. }
  assert (forall a l, ~ is_tuple a -> comparable a (LTup l) = false) as Ha by (by intros []).
  assert (forall a l, ~ is_tuple a -> comparable (LTup l) a = false) as Hb by (by intros []).
  assert (forall x, ~ is_tuple x -> forall y, comparable (tuplewise h x) (tuplewise h y) = comparable x y /\
    (comparable x y = true -> lab_cmp (tuplewise h x) (tuplewise h y) = lab_cmp x y)) as Hatom.
  { intros a Hx y. rewrite (tuplewise_atom h a) by done. assert (is_tuple y \/ ~ is_tuple y) as [Hy|Hy] by (destruct y; cbn; tauto).
    - destruct y as [| | | | |l]; try done. rewrite tuplewise_tup, !Ha by auto. done.
    - rewrite tuplewise_atom by done. auto. }
  induction x as [z|s|d|hh m s us tz|yy mo d hh m s us tz|l IH] using lab_ind'; try (solve [apply Hatom; intros []]).
  intros y. assert (is_tuple y \/ ~ is_tuple y) as [Hy|Hy] by (destruct y; cbn; tauto).
  2:{ rewrite tuplewise_tup, (tuplewise_atom h y), !Hb by auto. done. }
  destruct y as [| | | | |l']; try done. rewrite !tuplewise_tup, !comparable_tup, !lab_cmp_tup. clear Hy. revert l'.
  induction IH as [|x l Hx _ IH]; intros [|y l']; try done. rewrite !fmap_cons. cbn [complist lablist_cmp].
  destruct (decide (x = y)) as [->|Hxy].
  - rewrite decide_True by done. assert (forall a, lab_cmp a a = Eq) as Hr by (intros a; by apply lab_cmp_eq). rewrite !Hr. apply IH.
  - rewrite decide_False by (by rewrite Hinj). destruct (Hx y) as [E1 E2]. rewrite E1. split; [done|]. intros Hc. rewrite (E2 Hc).
    destruct (lab_cmp x y) eqn:E; [|done..]. by apply lab_cmp_eq in E.
Qed.
Lemma tuplewise_relabelling h k :
  (forall x, ~ is_tuple x -> ~ is_tuple (h x)) -> (forall x, ~ is_tuple x -> k (h x) = x) ->
  (forall x y, ~ is_tuple x -> ~ is_tuple y -> (orderable (h x) (h y) <-> orderable x y)) ->
  (forall x y, ~ is_tuple x -> ~ is_tuple y -> orderable x y -> (lab_lt (h x) (h y) <-> lab_lt x y)) ->
  relabelling (tuplewise h) (tuplewise k).
Proof.
  intros H1 H2 H3 H4.
  assert (forall x y, ~ is_tuple x -> ~ is_tuple y -> comparable (h x) (h y) = comparable x y) as H3'.
  { intros x y Hx Hy. apply Bool.eq_iff_eq_true. rewrite !comparable_spec. auto. }
  assert (forall x y, ~ is_tuple x -> ~ is_tuple y -> comparable x y = true -> lab_cmp (h x) (h y) = lab_cmp x y) as H4'.
  { intros x y Hx Hy Hc. rewrite comparable_spec in Hc. assert (orderable y x) as Hc'.
    { apply comparable_spec. apply comparable_spec in Hc. revert Hc Hx Hy. destruct x, y; try done; cbn; rewrite !bool_decide_eq_true; tauto. }
    pose proof (H4 x y Hx Hy Hc) as E1. pose proof (H4 y x Hy Hx Hc') as E2. unfold lab_lt in *.
    rewrite (lab_cmp_opp (h x) (h y)), (lab_cmp_opp x y) in E2.
    destruct (lab_cmp (h x) (h y)) eqn:E, (lab_cmp x y) eqn:E'; try done; cbn in E2; destruct E1, E2; exfalso; clear E E'; intuition discriminate. }
  pose proof (tuplewise_order h k H1 H2 H3' H4') as Ho. split.
  - by apply tuplewise_inverse.
  - done.
  - intros x y. rewrite <-!comparable_spec. by rewrite (proj1 (Ho x y)).
  - intros x y Hxy. apply comparable_spec in Hxy. unfold lab_lt. by rewrite (proj2 (Ho x y) Hxy).
Qed.

Lemma without_app p s : without p (p ++ s)%string = s.
Proof. induction p as [|c p IH]; [by destruct s|exact IH]. Qed.
Lemma zlist_cmp_app p l l' : zlist_cmp (p ++ l) (p ++ l') = zlist_cmp l l'.
Proof. induction p as [|z p IH]; [done|]. cbn. by rewrite Z.compare_refl. Qed.
Lemma keys_app p s :
  (fun c => Z.of_nat (nat_of_ascii c)) <$> list_ascii_of_string (p ++ s)%string =
  ((fun c => Z.of_nat (nat_of_ascii c)) <$> list_ascii_of_string p) ++ ((fun c => Z.of_nat (nat_of_ascii c)) <$> list_ascii_of_string s).
Proof.
  induction p as [|c p IH]; [done|]. change (String c p ++ s)%string with (String c (p ++ s)). cbn [list_ascii_of_string]. rewrite !fmap_cons, IH. done.
Qed.
Lemma zcmp_shift a b k : (a + k ?= b + k)%Z = (a ?= b)%Z.
Proof. destruct (Z.compare_spec a b), (Z.compare_spec (a + k) (b + k)); try lia; reflexivity. Qed.
Lemma prefix_relabelling p k : relabelling (tuplewise (with_prefix p k)) (tuplewise (without_prefix p k)).
Proof.
  apply tuplewise_relabelling.
  - by intros [].
  - intros [z|s|d|hh m s us tz|yy mo d hh m s us tz|l] Hx; try reflexivity; unfold with_prefix, without_prefix.
    + f_equal. lia.
    + f_equal. apply without_app.
  - intros x y Hx Hy. rewrite <-!comparable_spec. destruct x, y; reflexivity.
  - intros x y Hx Hy Hc. apply comparable_spec in Hc. unfold lab_lt. destruct x, y; cbn [comparable] in Hc; try discriminate Hc; cbn [with_prefix]; try reflexivity.
    + rewrite !lab_cmp_key by (by left). cbn [lab_key zlist_cmp]. rewrite zcmp_shift. reflexivity.
    + rewrite !lab_cmp_key by (by left). cbn [lab_key zlist_cmp]. rewrite keys_app, keys_app. rewrite zlist_cmp_app. reflexivity.
Qed.
Lemma days_relabelling : relabelling (tuplewise numbers_for_days) (tuplewise numbers_for_days).
Proof.
  apply tuplewise_relabelling.
  - by intros [].
  - intros [] Hx; reflexivity.
  - intros x y Hx Hy. rewrite <-!comparable_spec. destruct x, y; reflexivity.
  - intros x y Hx Hy Hc. apply comparable_spec in Hc. unfold lab_lt. destruct x, y; cbn [comparable] in Hc; try discriminate Hc; reflexivity.
Qed.
Lemma rename_lookup f g y : relabelling f g ->
  (forall label, larry_get (relabelled f y) (f <$> label) = larry_get y label) /\
  (forall name axis exact, labelindex (relabelled f y) (f name) axis exact = labelindex y name axis exact) /\
  (forall axis, getlabel (relabelled f y) axis = (fun l : list lab => f <$> l) <$> getlabel y axis) /\
  (forall axis, maxlabel (relabelled f y) axis = f <$> maxlabel y axis) /\
  (forall axis, minlabel (relabelled f y) axis = f <$> minlabel y axis).
Proof.
  intros Hf. split_and!.
  - intros label. by apply (rename_get f g).
  - intros. by apply (rename_labelindex f g).
  - intros. apply rename_getlabel.
  - intros. by apply (rename_maxlabel f g).
  - intros. by apply (rename_minlabel f g).
Qed.
