(** Facts about elementwise operators. *)
From Verif Require Export Ops AlignMore.

(** * Broadcasting *)
Lemma bshape_rev_comm a b : bshape_rev a b = bshape_rev b a.
Proof.
  revert b. induction a as [|m a IH]; intros [|n b]; simpl; try done. rewrite (IH b).
  repeat case_decide; subst; simpl; done.
Qed.
Lemma bshape_comm a b : bshape a b = bshape b a.
Proof. unfold bshape. by rewrite bshape_rev_comm. Qed.

Lemma bshape_rev_fits a b :
  bshape_rev a b = Some a <-> length b <= length a /\ Forall2 (fun m n => m = 1 \/ m = n) b (take (length b) a).
Proof.
  revert a. induction b as [|m b IH]; intros a.
  { rewrite bshape_rev_comm. simpl. split; [|done]. intros _. split; [lia|constructor]. }
  destruct a as [|n a]; simpl. { split; [done|]. intros [? _]. lia. }
  split.
  - intros H. destruct (if decide (n = m) then _ else _) as [d|] eqn:Ed; simpl in H; [|done].
    destruct (bshape_rev a b) as [r|] eqn:Er; simpl in H; [|done]. injection H as -> ->.
    apply IH in Er as [? ?]. split; [lia|]. constructor; [|done]. repeat case_decide; naive_solver.
  - intros [Hl HF]. inversion HF as [|? ? ? ? Hmn HF']; subst.
    rewrite (proj2 (IH a)) by (split; [lia|done]).
    destruct (decide (n = m)); [done|]. destruct Hmn as [->|?]; [|congruence].
    destruct (decide (n = 1)); [congruence|]. done.
Qed.
Lemma take_reverse' {A} n (l : list A) : take n (reverse l) = reverse (drop (length l - n) l).
Proof.
  destruct (decide (n <= length l)).
  - rewrite <-(take_drop (length l - n) l) at 1. rewrite reverse_app. apply take_app_alt. rewrite reverse_length, drop_length. lia.
  - replace (length l - n) with 0 by lia. rewrite drop_0. apply take_ge. rewrite reverse_length. lia.
Qed.
Lemma fits_bshape s sh : bshape sh s = Some sh <-> fits s sh.
Proof.
  unfold bshape, fits.
  assert (E : bshape_rev (reverse sh) (reverse s) = Some (reverse sh) <-> reverse <$> bshape_rev (reverse sh) (reverse s) = Some sh).
  { destruct (bshape_rev _ _); simpl; [|done]. split; intros [= H]; f_equal.
    - by rewrite H, reverse_involutive.
    - by rewrite <-H, reverse_involutive. }
  rewrite <-E, bshape_rev_fits, !reverse_length. apply and_iff_compat_l.
  rewrite take_reverse'. split.
  - intros HF%Forall2_reverse. by rewrite !reverse_involutive in HF.
  - intros HF. by apply Forall2_reverse.
Qed.
Lemma fits_refl sh : fits sh sh.
Proof. split; [lia|]. rewrite Nat.sub_diag, drop_0. apply Forall_Forall2_diag, Forall_forall. auto. Qed.
Lemma fits_nil sh : fits [] sh.
Proof. split; [simpl; lia|]. rewrite drop_ge by (simpl; lia). constructor. Qed.

Lemma bindex_spec s idx : length s <= length idx -> broadcast_index s idx (bindex s idx).
Proof.
  intros Hl. unfold broadcast_index, bindex.
  assert (HL : length (drop (length idx - length s) idx) = length s) by (rewrite drop_length; lia).
  revert HL. generalize (drop (length idx - length s) idx). clear. intros l.
  revert l. induction s as [|n s IH]; intros [|i l] HL; try done; constructor; [done|]. apply IH. by injection HL.
Qed.
Lemma broadcast_index_unique s idx i1 i2 : broadcast_index s idx i1 -> broadcast_index s idx i2 -> i1 = i2.
Proof.
  unfold broadcast_index. generalize (drop (length idx - length s) idx). intros l H1. revert i2.
  induction H1; intros i2 H2; inversion H2; subst; [done|]. f_equal. auto.
Qed.
Lemma bindex_in_range s sh idx : fits s sh -> in_range sh idx -> in_range s (bindex s idx).
Proof.
  intros [Hl HF] Hr. unfold bindex. rewrite (in_range_length _ _ Hr).
  assert (Hd : in_range (drop (length sh - length s) sh) (drop (length sh - length s) idx)) by (by apply Forall2_drop).
  revert HF Hd. generalize (drop (length sh - length s) sh) (drop (length sh - length s) idx). clear.
  intros sh idx HF. revert idx. induction HF as [|m n s sh Hmn HF IH]; intros idx Hd.
  - constructor.
  - apply in_range_cons in Hd as (i & idx' & -> & Hi & Hd). simpl. apply in_range_cons'. split; [|by apply IH].
    case_decide; lia.
Qed.
Lemma bindex_same sh idx : in_range sh idx -> bindex sh idx = idx.
Proof.
  intros Hr. unfold bindex. rewrite (in_range_length _ _ Hr), Nat.sub_diag, drop_0.
  induction Hr as [|i n idx sh Hi Hr IH]; simpl; [done|]. f_equal; [|done]. case_decide; lia.
Qed.

(** * Elementwise application *)
Lemma wf_get_Some (x : nda) idx : nda_wf x -> in_range (nd_shape x) idx ->
  exists v, aget (nd_arr x) idx = Some v /\ has_dtype (nd_dtype x) v = true.
Proof.
  intros Hw Hr. assert (is_Some (aget (nd_arr x) idx)) as [v Hv].
  { unfold aget. unfold nd_shape in Hr. rewrite decide_True by done. apply lookup_lt_is_Some.
    destruct Hw as [Hw _]. rewrite Hw. by apply ravel_lt. }
  exists v. split; [done|]. by eapply nda_wf_typed.
Qed.

Lemma elementwise_fits dt f x y r :
  nda_wf x -> nda_wf y -> fits (nd_shape y) (nd_shape x) -> elementwise dt f x y = Ok r ->
  nd_dtype r = dt /\ nd_shape r = nd_shape x /\ arr_wf (nd_arr r) /\
  forall idx, in_range (nd_shape x) idx -> exists idx' u v w,
    broadcast_index (nd_shape y) idx idx' /\
    aget (nd_arr x) idx = Some u /\ aget (nd_arr y) idx' = Some v /\ f u v = Some w /\ aget (nd_arr r) idx = Some w.
Proof.
  intros Hx Hy Hf. unfold elementwise. rewrite (proj2 (fits_bshape _ _) Hf). simpl.
  rewrite bind_ok. intros (b & Hb & [= <-]). apply of_opt_ok in Hb. simpl.
  assert (Hb' := Hb). apply build_Some in Hb' as (Hsh & Hwf & Hget). split_and!; [done|done|done|].
  intros idx Hr. assert (Hr2 : in_range (nd_shape y) (bindex (nd_shape y) idx)) by (by eapply bindex_in_range).
  destruct (wf_get_Some x idx Hx Hr) as (u & Hu & _). destruct (wf_get_Some y _ Hy Hr2) as (v & Hv & _).
  specialize (Hget idx Hr). assert (is_Some (aget b idx)) as [w Hw].
  { unfold aget. rewrite decide_True by (by rewrite Hsh). apply lookup_lt_is_Some. rewrite Hwf. apply ravel_lt. by rewrite Hsh. }
  exists (bindex (nd_shape y) idx), u, v, w. rewrite Hw in Hget. rewrite (bindex_same _ _ Hr), Hu, Hv in Hget. simpl in Hget.
  split_and!; try done. apply bindex_spec. destruct Hf as [? _]. by rewrite (in_range_length _ _ Hr).
Qed.
Lemma elementwise_fits_ok dt f x y :
  nda_wf x -> nda_wf y -> fits (nd_shape y) (nd_shape x) ->
  (forall u v, has_dtype (nd_dtype x) u = true -> has_dtype (nd_dtype y) v = true -> is_Some (f u v)) ->
  exists r, elementwise dt f x y = Ok r.
Proof.
  intros Hx Hy Hf HF. unfold elementwise. rewrite (proj2 (fits_bshape _ _) Hf). simpl.
  match goal with |- context [build ?sh ?g] => assert (is_Some (build sh g)) as [b ->] end; [|simpl; by eauto].
  apply build_is_Some. intros idx Hr.
  assert (Hr2 : in_range (nd_shape y) (bindex (nd_shape y) idx)) by (by eapply bindex_in_range).
  destruct (wf_get_Some x idx Hx Hr) as (u & Hu & ?). destruct (wf_get_Some y _ Hy Hr2) as (v & Hv & ?).
  rewrite (bindex_same _ _ Hr), Hu, Hv. simpl. auto.
Qed.
(** The mirrored form: the first operand is the smaller one. *)
Lemma elementwise_swap dt f x y : elementwise dt f x y = elementwise dt (fun u v => f v u) y x.
Proof.
  unfold elementwise. rewrite bshape_comm. destruct (bshape _ _); [|done]. simpl. f_equal. f_equal.
  unfold build. f_equal. apply mapM_ext. intros idx. destruct (aget (nd_arr x) _), (aget (nd_arr y) _); done.
Qed.
Lemma elementwise_no_fit dt f x y r :
  elementwise dt f x y = Ok r -> (nd_shape r = nd_shape x <-> fits (nd_shape y) (nd_shape x)).
Proof.
  unfold elementwise. rewrite bind_ok. intros (sh & Hsh & H). apply of_opt_ok in Hsh.
  apply bind_ok in H as (b & Hb & [= <-]). apply of_opt_ok in Hb. apply build_Some in Hb as (Hs & _).
  unfold nd_shape at 1. simpl. rewrite Hs, <-fits_bshape, Hsh. split; congruence.
Qed.

(** * Element functions *)
Lemma Qc_of_Z_0 z : Qc_of_Z z = 0%Qc <-> z = 0%Z.
Proof. rewrite <-Z2Qc_inj_0. apply Z2Qc_inj_iff. Qed.
Lemma Qfloor_div a b : b <> 0%Z -> Qround.Qfloor (this (Qc_of_Z a / Qc_of_Z b)%Qc) = (a / b)%Z.
Proof.
  intros Hb. assert (E : Qeq (this (Qc_of_Z a / Qc_of_Z b)%Qc) (inject_Z a / inject_Z b)).
  { unfold Qcdiv, Qcmult, Qcinv. simpl. rewrite !Qred_correct. reflexivity. }
  rewrite E. rewrite Qround.Zdiv_Qdiv. reflexivity.
Qed.

Lemma arith_elem_ok op dt1 dt2 dt u v :
  arithmetic dt1 -> arithmetic dt2 -> arith_dtype op dt1 dt2 = Ok dt ->
  has_dtype dt1 u = true -> has_dtype dt2 v = true -> exists w, arith_elem op dt u v = Some w.
Proof.
  unfold arithmetic. intros H1 H2. destruct H1 as [->|[->| ->]], H2 as [->|[->| ->]]; simpl; intros [= <-] Hu Hv; destruct u, v; try done; destruct op; simpl; eauto.
Qed.
Lemma arith_elem_value op dt1 dt2 dt u v w :
  arith_dtype op dt1 dt2 = Ok dt -> has_dtype dt1 u = true -> has_dtype dt2 v = true ->
  arith_elem op dt u v = Some w -> arith_value op u v w /\ has_dtype dt w = true.
Proof.
  assert (Hfd : forall a b, b <> 0%Z -> num_of_Z (a / b) = num_floor (num_div (num_of_Z a) (num_of_Z b))).
  { intros a b Hb. unfold num_of_Z at 2 3, num_div. rewrite decide_False by (intros E; by apply Qc_of_Z_0 in E).
    unfold num_floor. by rewrite Qfloor_div. }
  assert (H0 : num_of_Z 0 = Fin (Qc_of_Z 0)) by done.
  assert (Hz : forall b, num_of_Z b = num_of_Z 0 <-> b = 0%Z).
  { intros b. unfold num_of_Z. split; [by intros [= H]|by intros ->]. }
  assert (Hb : forall b : bool, (if b then 1 else 0)%Z = 0%Z <-> b = false) by (by intros []).
  unfold arith_dtype.
  destruct (decide (op = AOldDiv)) as [->|Hop].
  { destruct dt1, dt2; try done; intros [= <-] Hu Hv; destruct u, v; try done;
      intros H; simpl in H; injection H as <-; (split; [|done]); unfold arith_value;
      (eexists _, _; split; [reflexivity|]; split; [reflexivity|]);
      (match goal with |- context [decide (?P /\ ?Q)] => destruct (decide (P /\ Q)) as [Hd|Hd] end);
      try done; try (by destruct Hd); try (by exfalso; apply Hd);
      (split; [done|]); simpl; f_equal; rewrite (decide_ext _ _ _ _ (Hz _)); case_decide; try done; by rewrite Hfd. }
  destruct dt1, dt2; try done; intros [= <-] Hu Hv; destruct u, v; try done; destruct op; try done;
    intros H; simpl in H; try discriminate H; injection H as <-; (split; [|done]); unfold arith_value; try done;
    (eexists _, _; split; [reflexivity|]; split; [reflexivity|]);
    (match goal with |- context [if decide (?P /\ ?Q) then _ else _] => destruct (decide (P /\ Q)) as [Hd|Hd] end;
     [destruct Hd as (Hd1 & Hn & Hd2 & Hd3); try discriminate; apply Hz in Hn; rewrite ?(decide_True _ _ Hn); done|]);
    try done;
    try (simpl; unfold num_of_Z; rewrite ?Z2Qc_inj_add, ?Z2Qc_inj_sub, ?Z2Qc_inj_mul; done).
  all: rewrite decide_False by (intros Hn; apply Hd; by rewrite Hz); simpl; rewrite Hfd; [done|intros Hn; apply Hd; by rewrite Hz].
Qed.
Lemma arith_dtype_spec op dt1 dt2 dt :
  arith_dtype op dt1 dt2 = Ok dt <-> arithmetic dt1 /\ arithmetic dt2 /\ arith_result op dt1 dt2 dt.
Proof.
  unfold arith_result, arithmetic, arith_dtype.
  destruct dt1, dt2, op; simpl; (split; [intros [= <-]|intros (H1 & H2 & ->)]); try naive_solver;
    (split_and!; [tauto..|]); repeat case_decide; naive_solver.
Qed.

Lemma num_ltb_spec a b : num_ltb a b = true <-> num_lt a b.
Proof.
  destruct a as [p| | |], b as [q| | |]; simpl; try done. unfold Qc_ltb, Qclt, Qccompare, Qlt, Qcompare, Z.lt.
  destruct (_ ?= _)%Z; done.
Qed.
Lemma num_eqb_spec a b : num_eqb a b = true <-> num_same a b.
Proof.
  unfold num_same. destruct a as [p| | |], b as [q| | |]; simpl; rewrite ?bool_decide_eq_true; try (split; [done|intros [? ?]; done]); try done.
  all: split; [intros ->; done|intros [? ?]; done].
Qed.
Lemma string_eqb_spec s t : String.eqb s t = true <-> s = t.
Proof. apply String.eqb_eq. Qed.
Lemma cmp_bool_spec op lt eq gt (Lt Eq Gt : Prop) :
  (lt = true <-> Lt) -> (eq = true <-> Eq) -> (gt = true <-> Gt) ->
  cmp_bool op lt eq gt = true <->
  match op with CEq => Eq | CNe => ~ Eq | CLt => Lt | CGt => Gt | CLe => Lt \/ Eq | CGe => Gt \/ Eq end.
Proof. destruct op, lt, eq, gt; simpl; naive_solver. Qed.
Lemma cmp_elem_ok dt1 dt2 op u v :
  same_kind dt1 dt2 -> has_dtype dt1 u = true -> has_dtype dt2 v = true -> exists w, cmp_elem op u v = Some w.
Proof.
  unfold same_kind, arithmetic. intros [[H1 H2]|[-> ->]];
    [destruct H1 as [->|[->| ->]], H2 as [->|[->| ->]]|]; intros Hu Hv; destruct u, v; try done; simpl; eauto.
Qed.
Local Arguments num_ltb : simpl never.
Local Arguments num_eqb : simpl never.
Local Arguments num_of_Z : simpl never.
Lemma cmp_elem_value op u v w :
  cmp_elem op u v = Some w -> exists b, w = VBool b /\ (b = true <-> cmp_holds op u v).
Proof.
  assert (Hnum : forall a b, to_num u = Some a -> to_num v = Some b ->
    (cmp_bool op (num_ltb a b) (num_eqb a b) (num_ltb b a) = true <->
     exists n1 n2, to_num u = Some n1 /\ to_num v = Some n2 /\
      match op with
      | CEq => num_same n1 n2 | CNe => ~ num_same n1 n2
      | CLt => num_lt n1 n2 | CGt => num_lt n2 n1
      | CLe => num_lt n1 n2 \/ num_same n1 n2 | CGe => num_lt n2 n1 \/ num_same n1 n2
      end)).
  { intros a b Ha Hb. rewrite cmp_bool_spec by (apply num_ltb_spec || apply num_eqb_spec).
    split; [intros; exists a, b; by destruct op|]. intros (n1 & n2 & E1 & E2 & H). rewrite Ha in E1. rewrite Hb in E2.
    injection E1 as <-. injection E2 as <-. by destruct op. }
  destruct u, v; simpl; intros H; try discriminate; injection H as <-; (eexists; split; [reflexivity|]);
    try exact (Hnum _ _ eq_refl eq_refl).
  etransitivity; [apply cmp_bool_spec; [reflexivity|apply string_eqb_spec|reflexivity]|]. destruct op; simpl; tauto.
Qed.
