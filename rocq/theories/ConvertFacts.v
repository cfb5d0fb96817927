(** Lemmas about flattening and conversions. *)
From Verif Require Export Convert StackFacts CreateFacts.
From Coq Require Import Sorted.

Lemma labels_at_alt {A} (label : list (list A)) idx ls :
  length idx = length label -> length ls = length label ->
  (forall j axis i, label !! j = Some axis -> idx !! j = Some i -> axis !! i = ls !! j) ->
  labels_at label idx ls.
Proof.
  revert idx ls. induction label as [|axis label IH]; intros [|i idx] [|x ls]; simpl; intros ? ? H; try lia; [constructor|].
  constructor; [apply (H 0); done|]. apply IH; [lia..|]. intros j. apply (H (S j)).
Qed.

(** * zip *)
Lemma py_zip_lookup {A} (rows : list (list A)) k :
  rows <> [] -> Forall (fun r => length r = k) rows ->
  length (py_zip rows) = k /\
  forall j col, py_zip rows !! j = Some col -> length col = length rows /\
    forall i r, rows !! i = Some r -> col !! i = r !! j.
Proof.
  induction rows as [|r rows IH]; intros Hne Hk; [done|]. apply Forall_cons in Hk as [Hr Hk].
  destruct rows as [|r2 rows].
  - simpl. split; [by rewrite fmap_length|]. intros j col (x & Hx & ->)%list_lookup_fmap_Some.
    split; [done|]. intros [|i] r' [=]; subst. by rewrite Hx.
  - destruct IH as [Hl IH]; [done|done|]. remember (r2 :: rows) as rest.
    assert (Hz : py_zip (r :: rest) = zip_with cons r (py_zip rest)) by by rewrite Heqrest.
    rewrite Hz. split; [rewrite zip_with_length; lia|].
    intros j col (x & c & -> & Hx & Hc)%lookup_zip_with_Some. destruct (IH _ _ Hc) as [Hlc Hc'].
    split; [simpl; by rewrite Hlc|]. intros [|i] r'; simpl; [by intros [= <-]|apply Hc'].
Qed.
Lemma py_zip_some {A} (rows : list (list A)) k j :
  rows <> [] -> Forall (fun r => length r = k) rows -> j < k ->
  exists col, py_zip rows !! j = Some col /\ length col = length rows /\
    forall i r, rows !! i = Some r -> col !! i = r !! j.
Proof.
  intros Hne Hk Hj. destruct (py_zip_lookup rows k Hne Hk) as [Hl H].
  destruct (lookup_lt_is_Some_2 (py_zip rows) j) as [col Hc]; [lia|]. exists col. destruct (H _ _ Hc). done.
Qed.
Lemma py_zip_columns {A} (rows : list (list A)) k :
  rows <> [] -> Forall (fun r => length r = k) rows -> Forall (fun c => length c = length rows) (py_zip rows).
Proof.
  intros Hne Hk. destruct (py_zip_lookup rows k Hne Hk) as [Hl H]. apply Forall_lookup. intros j c Hc.
  by destruct (H _ _ Hc).
Qed.
Lemma py_zip_invol {A} (rows : list (list A)) k :
  rows <> [] -> k <> 0 -> Forall (fun r => length r = k) rows -> py_zip (py_zip rows) = rows.
Proof.
  intros Hne Hk0 Hk. destruct (py_zip_lookup rows k Hne Hk) as [Hl H].
  pose proof (py_zip_columns rows k Hne Hk) as Hc.
  assert (Hne' : py_zip rows <> []) by (intros E; rewrite E in Hl; simpl in Hl; lia).
  destruct (py_zip_lookup _ _ Hne' Hc) as [Hl2 H2].
  apply list_eq_same_length with (length rows); [done|done|]. intros i r' r Hi Hr' Hr.
  destruct (H2 _ _ Hr') as [Hlr' Hr'2]. apply list_eq_same_length with k.
  - by rewrite Forall_lookup in Hk; apply (Hk i).
  - lia.
  - intros j x y Hj Hx Hy. destruct (lookup_lt_is_Some_2 (py_zip rows) j) as [c Hcj]; [lia|].
    rewrite (Hr'2 _ _ Hcj) in Hx. destruct (H _ _ Hcj) as [_ Hcr]. rewrite (Hcr _ _ Hr) in Hx. congruence.
Qed.

(** * The value given last *)
Lemma last_given_cons {K V} (p : K * V) given k v :
  last_given (p :: given) k v <-> last_given given k v \/ p = (k, v) /\ forall i v', given !! i <> Some (k, v').
Proof.
  split.
  - intros ([|i] & Hi & Hl); simpl in Hi.
    + right. split; [congruence|]. intros j v'. apply (Hl (S j)). lia.
    + left. exists i. split; [done|]. intros j v' Hj. apply (Hl (S j)). lia.
  - intros [(i & Hi & Hl)|[-> Hl]].
    + exists (S i). split; [done|]. intros [|j] v' Hj; [lia|]. apply (Hl j). lia.
    + exists 0. split; [done|]. intros [|j] v' Hj; [lia|]. apply Hl.
Qed.
Lemma last_given_total {K V} `{EqDecision K} (given : list (K * V)) k :
  (exists v, last_given given k v) \/ (forall i v, given !! i <> Some (k, v)).
Proof.
  induction given as [|p given [[v IH]|IH]]; [by right|left; exists v; apply last_given_cons; by left|].
  destruct (decide (p.1 = k)) as [Hp|Hp].
  - left. exists p.2. apply last_given_cons. right. split; [destruct p; simpl in *; congruence|done].
  - right. intros [|i] v; simpl; [|apply IH]. intros [= ->]. done.
Qed.

(** * Storing values *)
Lemma foldM_set (a : arr val) ps :
  arr_wf a -> (forall p, p ∈ ps -> in_range (shape a) p.1) ->
  exists b, foldM (fun a p => if decide (in_range (shape a) p.1) then Ok (arr_set a p.1 p.2) else Err IndexError) a ps = Ok b /\
  shape b = shape a /\ arr_wf b /\
  (forall idx v, last_given ps idx v -> aget b idx = Some v) /\
  (forall idx, (forall i v, ps !! i <> Some (idx, v)) -> aget b idx = aget a idx).
Proof.
  revert a. induction ps as [|[p v] ps IH]; intros a Hwf Hr.
  - exists a. split_and!; [done|done|done|intros idx v (k & ? & _); done|done].
  - assert (Hp : in_range (shape a) p) by (apply (Hr (p, v)); left).
    destruct (IH (arr_set a p v)) as (b & Hb & Hs & Hw & H1 & H2).
    { by apply arr_set_wf. }
    { intros q Hq. apply Hr. by right. }
    exists b. simpl. rewrite decide_True by done. split_and!; [done|done|done| |].
    + intros idx w [Hl|[[= <- <-] Hl]]%last_given_cons; [by apply H1|].
      rewrite H2 by done. rewrite get_arr_set by done. by rewrite decide_True.
    + intros idx Hn. rewrite H2.
      * rewrite get_arr_set by done. rewrite decide_False; [done|]. intros ->. by apply (Hn 0 v).
      * intros i w. apply (Hn (S i)).
Qed.

Lemma store_float v w : store DFloat v = Ok w <-> is_numeric v /\ w = val_to_float v.
Proof. destruct v; simpl; naive_solver. Qed.

(** * fromlists *)
Lemma fromlists_spec rows xs k :
  rows <> [] -> k <> 0 -> Forall (fun r => length r = k) rows -> length xs = length rows ->
  (forall z, (p ← fromlists xs (py_zip rows); larry_of p) = Ok z ->
     length (llabel z) = k /\ tabulates (zip rows xs) z) /\
  (Forall is_numeric xs -> (forall j col, py_zip rows !! j = Some col -> all_comparable col) ->
     exists z, (p ← fromlists xs (py_zip rows); larry_of p) = Ok z).
Proof.
  intros Hne Hk0 Hk Hxs. destruct (py_zip_lookup rows k Hne Hk) as [Hlc Hcol].
  set (cols := py_zip rows) in *.
  assert (Hcne : cols <> []) by (intros E; rewrite E in Hlc; simpl in Hlc; lia).
  assert (Hcore : forall r vs, mapR list2index cols = Ok r -> mapR (store DFloat) xs = Ok vs ->
     exists z, (p ← fromlists xs cols; larry_of p) = Ok z /\ length (llabel z) = k /\ tabulates (zip rows xs) z).
  { intros r vs Hr Hvs.
    apply mapR_ok in Hr. assert (Hlr : length r = k) by (apply Forall2_length in Hr; lia).
    set (n := length rows) in *.
    assert (Hr' : forall j idx u col, r !! j = Some (idx, u) -> cols !! j = Some col ->
       length idx = n /\ StronglySorted lab_lt u /\ (forall x, x ∈ u <-> x ∈ col) /\
       forall i q, idx !! i = Some q -> u !! q = col !! i).
    { intros j idx u col Hrj Hcj. pose proof (Forall2_lookup_lr _ _ _ _ _ _ Hr Hcj Hrj) as Hl. simpl in Hl.
      apply list2index_spec in Hl as (Hs & He & Hm). apply mapM_Some_lookup in Hm as [Hml Hm].
      destruct (Hcol _ _ Hcj) as [Hlen _]. split_and!; [lia|done|done|done]. }
    set (label := r.*2). set (index := r.*1).
    assert (Hilen : Forall (fun c => length c = n) index).
    { apply Forall_lookup. intros j idx ([idx' u] & Hrj & ->)%list_lookup_fmap_Some.
      destruct (lookup_lt_is_Some_2 cols j) as [col Hcj]; [rewrite Hlc, <-Hlr; by eapply lookup_lt_Some|].
      simpl. by destruct (Hr' _ _ _ _ Hrj Hcj). }
    assert (Hine : index <> []).
    { intros E. apply (f_equal length) in E. unfold index in E. rewrite fmap_length in E. simpl in E. lia. }
    assert (Hil : length index = k) by (unfold index; by rewrite fmap_length).
    destruct (py_zip_lookup index n Hine Hilen) as [Hpl Hplaces].
    set (places := py_zip index) in *.
    assert (Hll : length label = k) by (unfold label; by rewrite fmap_length).
    assert (Hat : forall i pl row, places !! i = Some pl -> rows !! i = Some row -> labels_at label pl row).
    { intros i pl row Hpi Hri. destruct (Hplaces _ _ Hpi) as [Hlpl Hpl'].
      assert (Hlrow : length row = k) by (rewrite Forall_lookup in Hk; by apply (Hk i)).
      apply labels_at_alt; [lia|lia|]. intros j axis q Hj Hq.
      unfold label in Hj. apply list_lookup_fmap_Some in Hj as ([idx u] & Hrj & ->). simpl.
      destruct (lookup_lt_is_Some_2 cols j) as [col Hcj]; [rewrite Hlc, <-Hlr; by eapply lookup_lt_Some|].
      destruct (Hr' _ _ _ _ Hrj Hcj) as (_ & _ & _ & Hu). destruct (Hcol _ _ Hcj) as [_ Hc2].
      rewrite <-(Hc2 _ _ Hri). apply Hu.
      rewrite <-Hq. symmetry. apply Hpl'. unfold index. apply list_lookup_fmap_Some. by exists (idx, u). }
    assert (Hinr : forall i pl, places !! i = Some pl -> in_range (length <$> label) pl).
    { intros i pl Hpi. destruct (lookup_lt_is_Some_2 rows i) as [row Hri]; [fold n; rewrite <-Hpl; by eapply lookup_lt_Some|].
      eapply labels_at_in_range, Hat; done. }
    apply mapR_ok in Hvs. assert (Hlvs : length vs = n) by (apply Forall2_length in Hvs; lia).
    assert (Hnd : Forall NoDup label).
    { apply Forall_lookup. intros j axis ([idx u] & Hrj & ->)%list_lookup_fmap_Some. simpl.
      destruct (lookup_lt_is_Some_2 cols j) as [col Hcj]; [rewrite Hlc, <-Hlr; by eapply lookup_lt_Some|].
      destruct (Hr' _ _ _ _ Hrj Hcj) as (_ & Hs & _). by apply lt_sorted_nodup. }
    destruct (foldM_set (full (length <$> label) (VFloat NaN)) (zip places vs)) as (b & Hb & Hbs & Hbw & Hb1 & Hb2).
    { apply full_wf. }
    { intros [pl v] [i Hi]%elem_of_list_lookup. apply lookup_zip_with_Some in Hi as (? & ? & [= <- <-] & Hi & _).
      simpl. by eapply Hinr. }
    simpl in Hbs.
    assert (Hgiven : forall i ls v, zip rows xs !! i = Some (ls, v) ->
       exists pl, zip places vs !! i = Some (pl, val_to_float v) /\ labels_at label pl ls).
    { intros i ls v Hi. apply lookup_zip_with_Some in Hi as (? & ? & [= <- <-] & Hri & Hxi).
      destruct (lookup_lt_is_Some_2 places i) as [pl Hpi]; [rewrite Hpl; by eapply lookup_lt_Some|].
      exists pl. split; [|by eapply Hat].
      destruct (Forall2_lookup_l _ _ _ _ _ Hvs Hxi) as (w & Hwi & Hw). apply store_float in Hw as [_ ->].
      apply lookup_zip_with_Some. eauto. }
    assert (Hplaced : forall i pl w, zip places vs !! i = Some (pl, w) ->
       exists ls v, zip rows xs !! i = Some (ls, v) /\ labels_at label pl ls).
    { intros i pl w Hi. apply lookup_zip_with_Some in Hi as (? & ? & [= <- <-] & Hpi & Hwi).
      destruct (lookup_lt_is_Some_2 rows i) as [row Hri]; [fold n; rewrite <-Hpl; by eapply lookup_lt_Some|].
      destruct (lookup_lt_is_Some_2 xs i) as [v Hvi]; [rewrite Hxs; by eapply lookup_lt_Some|].
      exists row, v. split; [apply lookup_zip_with_Some; eauto|by eapply Hat]. }
    assert (Htyped : nda_wf (Nda DFloat b)).
    { apply nda_wf_get; [done|]. intros idx v Hg. simpl in *.
      destruct (last_given_total (zip places vs) idx) as [[w Hw]|Hw].
      - rewrite (Hb1 _ _ Hw) in Hg. injection Hg as <-. destruct Hw as (i & Hi & _).
        apply lookup_zip_with_Some in Hi as (? & w' & [= <- <-] & _ & Hwi).
        destruct (Forall2_lookup_r _ _ _ _ _ Hvs Hwi) as (v0 & _ & Hst). by eapply (store_typed DFloat).
      - rewrite Hb2 in Hg by done. rewrite get_full in Hg. case_decide; [|done]. by injection Hg as <-. }
    assert (Hlne : label <> []) by (intros E; rewrite E in Hll; simpl in Hll; lia).
    assert (Hz : valid (Larry (Nda DFloat b) label)).
    { split_and!; [done|done| |done]. unfold lshape. simpl. done. }
    exists (Larry (Nda DFloat b) label). split.
    { unfold fromlists. rewrite decide_False by naive_solver.
      rewrite (proj2 (mapR_ok _ _ _) Hr). cbn [mbind res_bind]. rewrite decide_False by done.
      rewrite (proj2 (mapR_ok _ _ _) Hvs). cbn [mbind res_bind].
      fold index label places. rewrite decide_True by lia. cbn [mbind res_bind]. rewrite Hb. cbn [mbind res_bind].
      apply make_some_valid; done. }
    split; [done|]. split_and!; [done|done| | | |].
    - intros [ls v] [i Hi]%elem_of_list_lookup. simpl. rewrite Hll.
      apply lookup_zip_with_Some in Hi as (? & ? & [= <- <-] & Hri & _). rewrite Forall_lookup in Hk. by apply (Hk i).
    - simpl. intros ax l ([idx u] & Hrj & ->)%list_lookup_fmap_Some. simpl.
      destruct (lookup_lt_is_Some_2 cols ax) as [col Hcj]; [rewrite Hlc, <-Hlr; by eapply lookup_lt_Some|].
      destruct (Hr' _ _ _ _ Hrj Hcj) as (_ & Hs & He & _). split; [done|]. intros x. rewrite He.
      destruct (Hcol _ _ Hcj) as [Hlcol Hc2]. split.
      + intros [i Hi]%elem_of_list_lookup.
        destruct (lookup_lt_is_Some_2 rows i) as [row Hri]; [fold n; rewrite <-Hlcol; by eapply lookup_lt_Some|].
        destruct (lookup_lt_is_Some_2 xs i) as [v Hvi]; [rewrite Hxs; by eapply lookup_lt_Some|].
        exists (row, v). split; [apply elem_of_list_lookup; exists i; apply lookup_zip_with_Some; eauto|].
        simpl. rewrite <-(Hc2 _ _ Hri). done.
      + intros ([row v] & [i Hi]%elem_of_list_lookup & Hx).
        apply lookup_zip_with_Some in Hi as (? & ? & [= <- <-] & Hri & _). simpl in Hx.
        rewrite <-(Hc2 _ _ Hri) in Hx. by eapply elem_of_list_lookup_2.
    - intros ls v (i & Hi & Hlast). destruct (Hgiven _ _ _ Hi) as (pl & Hpl1 & Hat1).
      rewrite (cell_at _ pl) by done. apply Hb1. exists i. split; [done|].
      intros i' w Hii Hi'. destruct (Hplaced _ _ _ Hi') as (ls' & v' & Hg & Hat').
      assert (ls' = ls) as -> by by eapply (labels_at_fun label pl).
      by eapply Hlast.
    - intros ls [idx Hidx]%in_grid_labels_at Hno. simpl in *. rewrite (cell_at _ idx) by done.
      unfold larr. simpl. rewrite Hb2.
      + rewrite get_full. rewrite decide_True; [done|]. by eapply labels_at_in_range.
      + intros i w Hi. destruct (Hplaced _ _ _ Hi) as (ls' & v' & Hg & Hat').
        assert (ls' = ls) as -> by by eapply (labels_at_fun label idx).
        apply (Hno (ls, v')); [by eapply elem_of_list_lookup_2|done]. }
  split.
  - intros z Hz. apply bind_ok in Hz as (p & Hp & Hz). pose proof Hp as Hp'. unfold fromlists in Hp.
    rewrite decide_False in Hp by naive_solver. apply bind_ok in Hp as (r & Hr & Hp).
    rewrite decide_False in Hp by done. apply bind_ok in Hp as (vs & Hvs & Hp).
    destruct (Hcore _ _ Hr Hvs) as (z' & Hz' & Hres). rewrite Hp' in Hz'. cbn [mbind res_bind] in Hz'.
    rewrite Hz in Hz'. by injection Hz' as ->.
  - intros Hnum Hcmp. destruct (mapR_total list2index cols) as [r Hr].
    { intros col [j Hj]%elem_of_list_lookup. destruct (list2index_ok col) as (idx & u & ?); [|eauto].
      apply sortable_spec, (Hcmp j), Hj. }
    destruct (mapR_total (store DFloat) xs) as [vs Hvs].
    { intros v Hv. rewrite Forall_forall in Hnum. eexists. apply store_float. split; [by apply Hnum|done]. }
    destruct (Hcore _ _ Hr Hvs) as (z & Hz & _). eauto.
Qed.

(** * flatten *)
Lemma flatten_core y order :
  valid y -> order = "C" \/ order = "F" ->
  exists fl x, flattenlabel (llabel y) order = Ok fl /\ np_flatten (larr y) order = Ok x /\
  length x = length fl /\ NoDup fl /\ (forall t, t ∈ fl <-> in_grid (llabel y) t) /\
  length fl = lsize y /\
  forall k t, fl !! k = Some t -> x !! k = cell y t.
Proof.
  intros Hv Ho. pose proof (valid_shape y Hv) as Hsh. pose proof (valid_wf y Hv) as Hwf.
  assert (Hlen : forall o, length (flattenlabel_order (llabel y) o) = lsize y).
  { intros o. rewrite flattenlabel_length, Hsh. done. }
  destruct Ho as [-> | ->].
  - exists (flattenlabel_order (llabel y) true), (data (larr y)). split_and!; try done.
    + rewrite Hlen. done.
    + apply flattenlabel_nodup. by apply valid_nodup.
    + apply flattenlabel_elem.
    + intros k t (idx & Hat & ->)%flattenlabel_C_lookup.
      rewrite (cell_at y idx) by (done || by apply valid_nodup). rewrite Hsh. symmetry. apply get_ravel.
      change (in_range (lshape y) idx). rewrite <-Hsh. by eapply labels_at_in_range.
  - destruct (transpose (larr y)) as [t|] eqn:Ht; [|exfalso; destruct (transpose_invol (larr y) Hwf) as (t & Ht' & _); congruence].
    exists (flattenlabel_order (llabel y) false), (data t). unfold np_flatten, flattenlabel.
    rewrite !(decide_False (P := "F" = "C")) by done. rewrite !(decide_True (P := "F" = "F")) by done. rewrite Ht.
    apply gather_Some in Ht as (Hst & Hwt & Hg).
    split_and!; try done.
    + rewrite Hwt, Hlen. unfold asize. rewrite Hst, size_of_reverse. done.
    + apply flattenlabel_nodup. by apply valid_nodup.
    + apply flattenlabel_elem.
    + intros k tt (idx & Hat & ->)%flattenlabel_F_lookup.
      assert (Hr : in_range (shape (larr y)) idx).
      { change (in_range (lshape y) idx). rewrite <-Hsh. by eapply labels_at_in_range. }
      rewrite (cell_at y idx) by (done || by apply valid_nodup). rewrite Hsh.
      change (lshape y) with (shape (larr y)). rewrite <-Hst.
      rewrite <-get_ravel by (rewrite Hst; by apply in_range_reverse).
      rewrite Hg by by apply in_range_reverse. simpl. by rewrite reverse_involutive.
Qed.

Lemma LTup_inj (t t' : list lab) : LTup t = LTup t' -> t = t'.
Proof. by intros [= ->]. Qed.

Lemma cell_1d (x : nda) l (u : lab) :
  cell (Larry x [l]) [u] = (i ← index_of u l; aget (nd_arr x) [i]).
Proof. unfold cell. simpl. destruct (index_of u l); done. Qed.

Lemma flatten_spec y order :
  valid y -> order = "C" \/ order = "F" -> exists z, larry_flatten y order = Ok z /\ flattened y z.
Proof.
  intros Hv Ho. destruct (flatten_core y order Hv Ho) as (fl & x & Hfl & Hx & Hlen & Hnd & Hin & _ & Hc).
  unfold larry_flatten. rewrite Hfl. cbn [mbind res_bind]. rewrite Hx. cbn [mbind res_bind].
  eexists. split; [done|].
  assert (Hnd' : NoDup (LTup <$> fl)) by (apply NoDup_fmap_2; [intros ??; apply LTup_inj|done]).
  assert (Hval : valid (Larry (Nda (ldtype y) (Arr [length x] x)) [LTup <$> fl])).
  { split_and!; [|done| |by apply Forall_singleton].
    - split; [unfold arr_wf, asize; simpl; lia|]. simpl. apply Forall_lookup. intros k v Hk.
      destruct (lookup_lt_is_Some_2 fl k) as [t Ht]; [rewrite <-Hlen; by eapply lookup_lt_Some|].
      rewrite (Hc _ _ Ht) in Hk. by eapply valid_cell_typed.
    - unfold lshape. simpl. by rewrite fmap_length, Hlen. }
  split_and!; [done|done|done| |].
  - intros ls. destruct (cell y ls) as [v|] eqn:Hcl.
    + assert (ls ∈ fl) as [k Hk]%elem_of_list_lookup by (apply Hin, valid_cell_grid; eauto).
      rewrite (cell_at _ [k]); [|by apply valid_nodup|].
      * unfold larr. simpl. assert (Hxk : x !! k = Some v) by (rewrite (Hc _ _ Hk); done).
        unfold aget. simpl. rewrite decide_True by (constructor; [by eapply lookup_lt_Some|constructor]).
        rewrite <-Hxk. f_equal. lia.
      * constructor; [|constructor]. rewrite list_lookup_fmap, Hk. done.
    + apply cell_None_grid; [done|]. simpl. intros Hg. inversion Hg as [|? ? ? ? Hi _]. subst.
      apply elem_of_list_fmap in Hi as (t & [= <-] & Ht). apply Hin in Ht. apply cell_None_grid in Hcl; done.
  - intros l Hl%valid_cell_grid; [|done]. simpl in Hl. inversion Hl as [|? ? ? ? Hi _]. subst.
    apply elem_of_list_fmap in Hi as (t & -> & Ht). eauto.
Qed.
Lemma flatten_bad y order : order <> "C" -> order <> "F" -> larry_flatten y order = Err ValueError.
Proof. intros H1 H2. unfold larry_flatten, flattenlabel. by rewrite !decide_False. Qed.

(** * Copies with sorted labels *)
Lemma valid_nonempty y : valid y -> llabel y <> [].
Proof. by intros (_ & ? & _). Qed.
Lemma in_grid_extend label ax l x :
  (forall l', l' ∈ label -> l' <> []) -> label !! ax = Some l -> x ∈ l ->
  exists ls, in_grid label ls /\ ls !! ax = Some x.
Proof.
  revert ax. induction label as [|a label IH]; intros ax Hne Hax Hx; [done|].
  assert (Hrest : exists ls, in_grid label ls).
  { assert (H : forall l', l' ∈ label -> l' <> []) by (intros; apply Hne; by right). clear -H.
    induction label as [|a label IH]; [exists []; constructor|]. destruct IH as [ls Hls]; [intros; apply H; by right|].
    destruct a as [|x a]; [exfalso; apply (H []); [left|done]|]. exists (x :: ls). constructor; [left|done]. }
  destruct ax as [|ax].
  - simpl in Hax. injection Hax as ->. destruct Hrest as [ls Hls]. exists (x :: ls). split; [by constructor|done].
  - destruct (IH ax) as (ls & Hls & Hlx); [intros; apply Hne; by right|done|done|].
    destruct a as [|b a]; [exfalso; apply (Hne []); [left|done]|].
    exists (b :: ls). split; [constructor; [left|done]|done].
Qed.
Lemma size_nonempty y : valid y -> lsize y <> 0 -> forall l, l ∈ llabel y -> l <> [].
Proof.
  intros Hv Hs l Hl ->. apply Hs. change (lsize y) with (size_of (lshape y)). rewrite <-valid_shape by done.
  revert Hl. induction (llabel y) as [|a label IH]; intros Hl; [by apply elem_of_nil in Hl|]. csimpl.
  apply elem_of_cons in Hl as [<-|Hl]; [done|]. rewrite IH by done. lia.
Qed.
Lemma tabulates_sorted_copy y given z :
  valid y -> lsize y <> 0 -> tabulates given z -> length (llabel z) = length (llabel y) ->
  (forall p, p ∈ given -> cell y p.1 = Some p.2) ->
  (forall ls v, cell y ls = Some v -> (ls, v) ∈ given) ->
  sorted_copy y z.
Proof.
  intros Hv Hs (Hvz & Hdz & _ & Hax & Hlast & _) Hlen H1 H2. split_and!; [done|done| |].
  - apply Forall2_same_length_lookup. split; [done|]. intros ax l l' Hl Hl'.
    destruct (Hax _ _ Hl') as [Hsort Hin]. split; [done|]. apply NoDup_Permutation.
    + by apply lt_sorted_nodup.
    + pose proof (valid_nodup y Hv) as Hnd. rewrite Forall_lookup in Hnd. by eapply Hnd.
    + intros x. rewrite Hin. split.
      * intros (p & Hp & Hx). apply H1 in Hp.
        assert (Hg : in_grid (llabel y) p.1) by (apply valid_cell_grid; eauto).
        eapply Forall2_lookup_l in Hx as (l2 & Hl2 & Hx); [|exact Hg]. congruence.
      * intros Hx. destruct (in_grid_extend (llabel y) ax l x) as (ls & Hg & Hlx); [by apply size_nonempty|done|done|].
        apply valid_cell_grid in Hg as [v Hc]; [|done]. exists (ls, v). split; [by apply H2|done].
  - intros ls v Hc. destruct (last_given_total given ls) as [[w Hw]|Hno].
    + assert (w = v) as ->.
      { destruct Hw as (i & Hi & _). apply elem_of_list_lookup_2, H1 in Hi. simpl in Hi. congruence. }
      by apply Hlast.
    + apply H2, elem_of_list_lookup in Hc as [i Hi]. by apply Hno in Hi.
Qed.
Lemma sorted_copy_eq y z :
  valid y -> ldtype y = DFloat -> (forall l, l ∈ llabel y -> StronglySorted lab_lt l) -> sorted_copy y z -> z = y.
Proof.
  intros Hv Hd Hs (Hvz & Hdz & Hl & Hc).
  assert (Heq : llabel z = llabel y).
  { assert (H : Forall (fun l => StronglySorted lab_lt l) (llabel y)) by by apply Forall_forall. clear -Hl H.
    induction Hl as [|l l' L L' [Hs' Hp] Hl IH]; [done|]. apply Forall_cons in H as [Hl0 HL]. f_equal; [|by apply IH].
    apply lt_sorted_unique; [done..|]. intros x. by rewrite Hp. }
  symmetry. apply larry_ext; [done..|congruence|done|]. intros ls Hg.
  apply valid_cell_grid in Hg as [v Hv']; [|done]. rewrite Hv'. symmetry. rewrite (Hc _ _ Hv').
  apply valid_cell_typed in Hv'; [|done]. rewrite Hd in Hv'. by destruct v.
Qed.

(** The rows and values of a larry, in any order. *)
Lemma convert_core y rows xs :
  valid y -> lsize y <> 0 -> length xs = length rows ->
  (forall p, p ∈ zip rows xs -> cell y p.1 = Some p.2) ->
  (forall ls v, cell y ls = Some v -> (ls, v) ∈ zip rows xs) ->
  (forall v, v ∈ xs -> is_numeric v) ->
  (forall l, l ∈ llabel y -> all_comparable l) ->
  rows <> [] /\ Forall (fun r => length r = length (llabel y)) rows /\
  exists z, (p ← fromlists xs (py_zip rows); larry_of p) = Ok z /\ sorted_copy y z.
Proof.
  intros Hv Hs Hlen H1 H2 Hnum Hcmp.
  assert (Hrow : forall i row, rows !! i = Some row -> in_grid (llabel y) row).
  { intros i row Hi. destruct (lookup_lt_is_Some_2 xs i) as [v Hx]; [rewrite Hlen; by eapply lookup_lt_Some|].
    apply valid_cell_grid; [done|]. exists v. apply (H1 (row, v)). apply elem_of_list_lookup. exists i.
    apply lookup_zip_with_Some. eauto. }
  assert (Hne : rows <> []).
  { intros ->. assert (Hy : exists ls, in_grid (llabel y) ls).
    { pose proof (valid_nonempty y Hv) as Hn. destruct (llabel y) as [|l0 L] eqn:E; [done|].
      pose proof (size_nonempty y Hv Hs) as Hne'. rewrite E in Hne'.
      destruct l0 as [|x l0]; [exfalso; apply (Hne' []); [left|done]|].
      destruct (in_grid_extend ((x :: l0) :: L) 0 (x :: l0) x) as (ls & Hls & _); [done|done|left|]. eauto. }
    destruct Hy as [ls Hls]. apply valid_cell_grid in Hls as [v Hc]; [|done]. apply H2 in Hc. by apply elem_of_nil in Hc. }
  assert (Hk : Forall (fun r => length r = length (llabel y)) rows).
  { apply Forall_lookup. intros i row Hi. by apply Hrow, Forall2_length in Hi. }
  split_and!; [done|done|].
  destruct (fromlists_spec rows xs (length (llabel y))) as [Hspec Hok]; [done| |done|done|].
  { pose proof (valid_nonempty y Hv). by destruct (llabel y). }
  destruct Hok as [z Hz].
  { by apply Forall_forall. }
  { intros j col Hj. destruct (py_zip_lookup rows _ Hne Hk) as [Hlc Hcol].
    destruct (lookup_lt_is_Some_2 (llabel y) j) as [l Hl]; [rewrite <-Hlc; by eapply lookup_lt_Some|].
    destruct (Hcol _ _ Hj) as [Hcl Hce].
    assert (Hsub : forall x, x ∈ col -> x ∈ l).
    { intros x [i Hi]%elem_of_list_lookup.
      destruct (lookup_lt_is_Some_2 rows i) as [row Hri]; [rewrite <-Hcl; by eapply lookup_lt_Some|].
      rewrite (Hce _ _ Hri) in Hi. pose proof (Hrow _ _ Hri) as Hg.
      destruct (Forall2_lookup_l _ _ _ _ _ Hg Hi) as (l2 & Hl2 & Hx). congruence. }
    intros a b Ha Hb. apply (Hcmp l); [by eapply elem_of_list_lookup_2|auto|auto]. }
  exists z. split; [done|]. destruct (Hspec z Hz) as [Hlz Ht].
  eapply tabulates_sorted_copy; done.
Qed.

Lemma numeric_values y fl x :
  valid y -> numeric_dtype (ldtype y) -> length x = length fl ->
  (forall k t, fl !! k = Some t -> x !! k = cell y t) -> forall v, v ∈ x -> is_numeric v.
Proof.
  intros Hv Hd Hlen Hc v [k Hk]%elem_of_list_lookup.
  destruct (lookup_lt_is_Some_2 fl k) as [t Ht]; [rewrite <-Hlen; by eapply lookup_lt_Some|].
  rewrite (Hc _ _ Ht) in Hk. apply valid_cell_typed in Hk; [|done].
  destruct Hd as [Hd|[Hd|Hd]]; rewrite Hd in Hk; by destruct v.
Qed.
Lemma flatten_pairs y fl x :
  valid y -> length x = length fl -> (forall t, t ∈ fl <-> in_grid (llabel y) t) ->
  (forall k t, fl !! k = Some t -> x !! k = cell y t) ->
  (forall p, p ∈ zip fl x -> cell y p.1 = Some p.2) /\ (forall ls v, cell y ls = Some v -> (ls, v) ∈ zip fl x).
Proof.
  intros Hv Hlen Hin Hc. split.
  - intros [ls v] [i Hi]%elem_of_list_lookup. apply lookup_zip_with_Some in Hi as (? & ? & [= <- <-] & Hf & Hx).
    simpl. rewrite <-(Hc _ _ Hf). done.
  - intros ls v Hcl. assert (ls ∈ fl) as [k Hk]%elem_of_list_lookup by (apply Hin, valid_cell_grid; eauto).
    apply elem_of_list_lookup. exists k. apply lookup_zip_with_Some. exists ls, v. split_and!; [done|done|].
    rewrite (Hc _ _ Hk). done.
Qed.
Lemma mapR_lab_items fl : mapR lab_items (LTup <$> fl) = Ok fl.
Proof. induction fl as [|t fl IH]; [done|]. csimpl. by rewrite IH. Qed.

Lemma unflatten_flatten y order :
  valid y -> order = "C" \/ order = "F" -> ldtype y = DFloat \/ ldtype y = DInt ->
  lsize y <> 0 -> (forall l, l ∈ llabel y -> all_comparable l) ->
  exists z, (yf ← larry_flatten y order; larry_unflatten yf) = Ok z /\ sorted_copy y z.
Proof.
  intros Hv Ho Hd Hs Hcmp.
  destruct (flatten_core y order Hv Ho) as (fl & x & Hfl & Hx & Hlen & Hnd & Hin & Hsize & Hc).
  unfold larry_flatten. rewrite Hfl. cbn [mbind res_bind]. rewrite Hx. cbn [mbind res_bind].
  destruct (flatten_pairs y fl x Hv Hlen Hin Hc) as [H1 H2].
  destruct (convert_core y fl x) as (_ & _ & z & Hz & Hcp); [done..| |done|].
  { eapply numeric_values; [done| |done|done]. unfold numeric_dtype. tauto. }
  exists z. split; [|done]. unfold larry_unflatten. rewrite decide_False by (unfold lndim; simpl; lia).
  unfold lshape. simpl. rewrite decide_False by (intros [=]; lia).
  destruct x as [|v x]; [simpl in *; lia|]. simpl.
  assert (Hv0 : is_Some (fl !! 0)) by (apply lookup_lt_is_Some; simpl in *; lia). destruct Hv0 as [t0 Ht0].
  pose proof (Hc _ _ Ht0) as Hc0. simpl in Hc0. symmetry in Hc0. apply valid_cell_typed in Hc0; [|done].
  assert (isscalar v = true) as -> by (destruct Hd as [Hd|Hd]; rewrite Hd in Hc0; by destruct v).
  rewrite mapR_lab_items. done.
Qed.
Lemma unflatten_flatten_bad y order :
  valid y -> order = "C" \/ order = "F" -> lsize y <> 0 -> ldtype y = DBool \/ ldtype y = DStr ->
  (yf ← larry_flatten y order; larry_unflatten yf) = Err NotImplementedError.
Proof.
  intros Hv Ho Hs Hd.
  destruct (flatten_core y order Hv Ho) as (fl & x & Hfl & Hx & Hlen & Hnd & Hin & Hsize & Hc).
  unfold larry_flatten. rewrite Hfl. cbn [mbind res_bind]. rewrite Hx. cbn [mbind res_bind].
  unfold larry_unflatten. rewrite decide_False by (unfold lndim; simpl; lia).
  unfold lshape. simpl. rewrite decide_False by (intros [=]; lia).
  destruct x as [|v x]; [simpl in *; lia|]. simpl.
  assert (Hv0 : is_Some (fl !! 0)) by (apply lookup_lt_is_Some; simpl in *; lia). destruct Hv0 as [t0 Ht0].
  pose proof (Hc _ _ Ht0) as Hc0. simpl in Hc0. symmetry in Hc0. apply valid_cell_typed in Hc0; [|done].
  assert (isscalar v = false) as -> by (destruct Hd as [Hd|Hd]; rewrite Hd in Hc0; by destruct v). done.
Qed.
Lemma unflatten_flatten_empty y order :
  valid y -> order = "C" \/ order = "F" -> lsize y = 0 ->
  (yf ← larry_flatten y order; larry_unflatten yf) = Ok empty_larry.
Proof.
  intros Hv Ho Hs.
  destruct (flatten_core y order Hv Ho) as (fl & x & Hfl & Hx & Hlen & Hnd & Hin & Hsize & Hc).
  unfold larry_flatten. rewrite Hfl. cbn [mbind res_bind]. rewrite Hx. cbn [mbind res_bind].
  unfold larry_unflatten. rewrite decide_False by (unfold lndim; simpl; lia).
  rewrite decide_True; [done|]. unfold lshape. simpl. rewrite Hlen, Hsize, Hs. done.
Qed.

(** * Lists, tuples and dictionaries *)
Lemma tolist_ok y :
  valid y -> exists fl x, larry_tolist y = Ok (x, fl) /\
  length x = length fl /\ NoDup fl /\ (forall t, t ∈ fl <-> in_grid (llabel y) t) /\
  length fl = lsize y /\ forall k t, fl !! k = Some t -> x !! k = cell y t.
Proof.
  intros Hv. destruct (flatten_core y "C" Hv) as (fl & x & Hfl & Hx & H); [by left|].
  exists fl, x. split; [|done]. unfold larry_tolist, larry_flatten. rewrite Hfl. cbn [mbind res_bind]. rewrite Hx.
  cbn [mbind res_bind]. simpl. by rewrite mapR_lab_items.
Qed.
Lemma fromlist_tolist y :
  valid y -> numeric_dtype (ldtype y) -> lsize y <> 0 -> (forall l, l ∈ llabel y -> all_comparable l) ->
  exists z, (d ← larry_tolist y; larry_fromlist (Some d)) = Ok z /\ sorted_copy y z.
Proof.
  intros Hv Hd Hs Hcmp. destruct (tolist_ok y Hv) as (fl & x & -> & Hlen & Hnd & Hin & _ & Hc). cbn [mbind res_bind].
  destruct (flatten_pairs y fl x Hv Hlen Hin Hc) as [H1 H2].
  destruct (convert_core y fl x) as (_ & _ & z & Hz & Hcp); [done..| |done|].
  { by eapply numeric_values. }
  exists z. done.
Qed.
Lemma same_length_ok (rows : list (list lab)) k : Forall (fun r => length r = k) rows -> same_length rows = true.
Proof.
  destruct rows as [|r rows]; [done|]. intros [Hr Hk]%Forall_cons. simpl. apply forallb_forall.
  intros r' Hr'%elem_of_list_In. apply bool_decide_eq_true. rewrite Forall_forall in Hk. rewrite (Hk r') by done. done.
Qed.
Lemma same_length_inv (rows : list (list lab)) : same_length rows = true -> exists k, Forall (fun r => length r = k) rows.
Proof.
  destruct rows as [|r rows]; [by exists 0|]. simpl. intros H. exists (length r). constructor; [done|].
  apply Forall_forall. intros r' Hr'. rewrite forallb_forall in H.
  apply elem_of_list_In, H in Hr'. by apply bool_decide_eq_true in Hr'.
Qed.
Lemma zip_split {A B} (d : list (A * B)) : zip d.*1 d.*2 = d.
Proof. induction d as [|[a b] d IH]; [done|]. csimpl. by rewrite IH. Qed.
Lemma fst_zip_eq {A B} (l : list A) (k : list B) : length l = length k -> (zip l k).*1 = l.
Proof. intros H. apply fst_zip. lia. Qed.
Lemma snd_zip_eq {A B} (l : list A) (k : list B) : length l = length k -> (zip l k).*2 = k.
Proof. intros H. apply snd_zip. lia. Qed.
Lemma totuples_ok y :
  valid y -> exists fl x, larry_totuples y = Ok (zip fl x) /\
  length x = length fl /\ NoDup fl /\ (forall t, t ∈ fl <-> in_grid (llabel y) t) /\
  length fl = lsize y /\ forall k t, fl !! k = Some t -> x !! k = cell y t.
Proof.
  intros Hv. destruct (flatten_core y "C" Hv) as (fl & x & Hfl & Hx & Hlen & Hnd & Hin & H); [by left|].
  exists fl, x. split; [|done]. unfold larry_totuples, larry_flatten. rewrite Hfl. cbn [mbind res_bind]. rewrite Hx.
  cbn [mbind res_bind]. simpl. rewrite mapR_lab_items. simpl.
  destruct fl as [|r fl]; [done|]. rewrite (py_zip_invol (r :: fl) (length (llabel y))); [done|done| |].
  - pose proof (valid_nonempty y Hv). by destruct (llabel y).
  - apply Forall_forall. intros t Ht%Hin. by eapply Forall2_length.
Qed.
Lemma fromtuples_totuples y :
  valid y -> numeric_dtype (ldtype y) -> lsize y <> 0 -> (forall l, l ∈ llabel y -> all_comparable l) ->
  exists z, (d ← larry_totuples y; larry_fromtuples d) = Ok z /\ sorted_copy y z.
Proof.
  intros Hv Hd Hs Hcmp. destruct (totuples_ok y Hv) as (fl & x & -> & Hlen & Hnd & Hin & Hsize & Hc). cbn [mbind res_bind].
  destruct (flatten_pairs y fl x Hv Hlen Hin Hc) as [H1 H2].
  destruct (convert_core y fl x) as (Hne & Hk & z & Hz & Hcp); [done..| |done|].
  { by eapply numeric_values. }
  exists z. split; [|done]. unfold larry_fromtuples.
  rewrite fst_zip_eq, snd_zip_eq by done.
  rewrite decide_False.
  - rewrite (same_length_ok fl _ Hk). done.
  - intros E. apply (f_equal length) in E. rewrite zip_with_length in E. destruct fl, x; simpl in *; done || lia.
Qed.
Lemma fromtuples_spec d z k :
  d <> [] -> k <> 0 -> Forall (fun p => length p.1 = k) d -> larry_fromtuples d = Ok z ->
  length (llabel z) = k /\ tabulates d z.
Proof.
  intros Hne Hk0 Hk. unfold larry_fromtuples. rewrite decide_False by done.
  rewrite (same_length_ok d.*1 k) by by apply Forall_fmap.
  destruct (fromlists_spec d.*1 d.*2 k) as [H _]; [by destruct d|done|by apply Forall_fmap|by rewrite !fmap_length|].
  intros Hz. rewrite zip_split in H. by apply H.
Qed.
Lemma column_elem (rows : list (list lab)) k j col x :
  rows <> [] -> Forall (fun r => length r = k) rows -> py_zip rows !! j = Some col -> x ∈ col ->
  exists r, r ∈ rows /\ r !! j = Some x.
Proof.
  intros Hne Hk Hj [i Hi]%elem_of_list_lookup. destruct (py_zip_lookup rows k Hne Hk) as [_ H].
  destruct (H _ _ Hj) as [Hl Hc]. destruct (lookup_lt_is_Some_2 rows i) as [r Hr]; [rewrite <-Hl; by eapply lookup_lt_Some|].
  exists r. split; [by eapply elem_of_list_lookup_2|]. rewrite <-(Hc _ _ Hr). done.
Qed.
Lemma fromtuples_ok d k :
  d <> [] -> k <> 0 -> Forall (fun p => length p.1 = k) d -> Forall (fun p => is_numeric p.2) d ->
  (forall p q j a b, p ∈ d -> q ∈ d -> p.1 !! j = Some a -> q.1 !! j = Some b -> a = b \/ comparable a b = true) ->
  exists z, larry_fromtuples d = Ok z /\ length (llabel z) = k /\ tabulates d z.
Proof.
  intros Hne Hk0 Hk Hnum Hcmp.
  assert (Hne' : d.*1 <> []) by by destruct d. assert (Hk' : Forall (fun r => length r = k) d.*1) by by apply Forall_fmap.
  destruct (fromlists_spec d.*1 d.*2 k) as [_ H]; [done|done|done|by rewrite !fmap_length|].
  destruct H as [z Hz].
  { by apply Forall_fmap. }
  { intros j col Hj a b Ha Hb.
    destruct (column_elem _ _ _ _ _ Hne' Hk' Hj Ha) as (r & Hr & Hra).
    destruct (column_elem _ _ _ _ _ Hne' Hk' Hj Hb) as (r' & Hr' & Hrb).
    apply elem_of_list_fmap in Hr as (p & -> & Hp). apply elem_of_list_fmap in Hr' as (q & -> & Hq).
    by eapply (Hcmp p q j). }
  assert (Hf : larry_fromtuples d = Ok z).
  { unfold larry_fromtuples. rewrite decide_False by done. by rewrite (same_length_ok d.*1 k). }
  exists z. split; [done|]. by apply fromtuples_spec.
Qed.

Lemma dict_set_fresh `{EqDecision K} {V} (k : K) (v : V) d : k ∉ d.*1 -> dict_set k v d = d ++ [(k, v)].
Proof.
  induction d as [|[k' v'] d IH]; csimpl; [done|]. intros [Hk Hd]%not_elem_of_cons.
  rewrite decide_False by done. by rewrite IH.
Qed.
Lemma dict_zip_nodup `{EqDecision K} {V} (ks : list K) (vs : list V) :
  length ks = length vs -> NoDup ks -> dict_zip ks vs = zip ks vs.
Proof.
  intros Hl Hnd. unfold dict_zip.
  assert (H : forall (l d : list (K * V)), NoDup (d.*1 ++ l.*1) -> fold_left (fun d p => dict_set p.1 p.2 d) l d = d ++ l).
  { intros l. induction l as [|[k v] l IH]; intros d Hd; simpl; [by rewrite app_nil_r|].
    rewrite dict_set_fresh.
    - rewrite IH; [by rewrite <-app_assoc|]. rewrite fmap_app. csimpl. by rewrite <-app_assoc.
    - csimpl in Hd. apply NoDup_app in Hd as (_ & Hd & _). intros Hk. apply (Hd k Hk). left. }
  rewrite H; [done|]. simpl. rewrite fst_zip; [done|lia].
Qed.
Lemma fromdict_todict y :
  valid y -> numeric_dtype (ldtype y) -> lsize y <> 0 -> (forall l, l ∈ llabel y -> all_comparable l) ->
  exists d, larry_todict y = Ok d /\ NoDup d.*1 /\ (forall ls v, (ls, v) ∈ d <-> cell y ls = Some v) /\
  forall d', d' ≡ₚ d -> exists z, larry_fromdict d' = Ok z /\ sorted_copy y z.
Proof.
  intros Hv Hd Hs Hcmp. unfold larry_todict. destruct (tolist_ok y Hv) as (fl & x & -> & Hlen & Hnd & Hin & _ & Hc).
  cbn [mbind res_bind]. simpl. rewrite dict_zip_nodup by done. exists (zip fl x). split; [done|].
  destruct (flatten_pairs y fl x Hv Hlen Hin Hc) as [H1 H2].
  split; [by rewrite fst_zip_eq|]. split.
  { intros ls v. split; [apply (H1 (ls, v))|apply H2]. }
  intros d' Hp.
  destruct (convert_core y d'.*1 d'.*2) as (_ & _ & z & Hz & Hcp); [done|done|by rewrite !fmap_length| | | |done|].
  - rewrite zip_split. intros p. rewrite Hp. apply H1.
  - rewrite zip_split. intros ls v. rewrite Hp. apply H2.
  - intros v. rewrite Hp. rewrite snd_zip_eq by done. by eapply numeric_values.
  - exists z. done.
Qed.
Lemma convert_empty y :
  valid y -> lsize y = 0 ->
  (d ← larry_tolist y; larry_fromlist (Some d)) = Ok empty_larry /\
  (d ← larry_totuples y; larry_fromtuples d) = Ok empty_larry /\
  (d ← larry_todict y; larry_fromdict d) = Ok empty_larry.
Proof.
  intros Hv Hs. unfold larry_todict.
  destruct (tolist_ok y Hv) as (fl & x & -> & Hlen & _ & _ & Hsize & _).
  destruct (totuples_ok y Hv) as (fl' & x' & -> & Hlen' & _ & _ & Hsize' & _).
  destruct fl; [|simpl in *; lia]. destruct x; [|simpl in *; lia].
  destruct fl'; [|simpl in *; lia]. destruct x'; [|simpl in *; lia]. split_and!; vm_compute; done.
Qed.
Lemma flatten_order y z order k t :
  larry_flatten y order = Ok z ->
  (exists l, llabel z !! 0 = Some l /\ l !! k = Some (LTup t)) <->
  exists idx, labels_at (llabel y) idx t /\
    k = (if decide (order = "C") then ravel (length <$> llabel y) idx
         else ravel (reverse (length <$> llabel y)) (reverse idx)).
Proof.
  unfold larry_flatten. intros (fl & Hfl & (x & _ & [= <-])%bind_ok)%bind_ok. simpl.
  transitivity (fl !! k = Some t).
  - split.
    + intros (l & [= <-] & Hl). apply list_lookup_fmap_Some in Hl as (t' & Ht & [= <-]). done.
    + intros Hk. eexists. split; [done|]. by rewrite list_lookup_fmap, Hk.
  - unfold flattenlabel in Hfl. destruct (decide (order = "C")).
    + injection Hfl as <-. apply flattenlabel_C_lookup.
    + destruct (decide (order = "F")); [|done]. injection Hfl as <-. apply flattenlabel_F_lookup.
Qed.
Lemma unflatten_any y rows k :
  valid y -> llabel y = [LTup <$> rows] -> rows <> [] -> k <> 0 -> Forall (fun r => length r = k) rows ->
  ldtype y = DFloat \/ ldtype y = DInt ->
  (forall p q j a b, p ∈ rows -> q ∈ rows -> p !! j = Some a -> q !! j = Some b -> a = b \/ comparable a b = true) ->
  exists z, larry_unflatten y = Ok z /\ length (llabel z) = k /\ tabulates (zip rows (data (larr y))) z.
Proof.
  intros Hv Hl Hne Hk0 Hk Hd Hcmp. pose proof (valid_shape y Hv) as Hsh. rewrite Hl in Hsh. simpl in Hsh.
  rewrite fmap_length in Hsh. pose proof (valid_wf y Hv) as Hwf. unfold arr_wf, asize in Hwf.
  change (shape (larr y)) with (lshape y) in Hwf. rewrite <-Hsh in Hwf. simpl in Hwf. rewrite Nat.mul_1_r in Hwf.
  pose proof (valid_typed y Hv) as Ht.
  destruct (fromlists_spec rows (data (larr y)) k) as [Hs Hok]; [done..|].
  destruct Hok as [z Hz].
  { apply Forall_forall. intros v Hin. rewrite Forall_forall in Ht. apply Ht in Hin.
    destruct Hd as [Hd|Hd]; rewrite Hd in Hin; by destruct v. }
  { intros j col Hj a b Ha Hb.
    destruct (column_elem _ _ _ _ _ Hne Hk Hj Ha) as (r & Hr & Hra).
    destruct (column_elem _ _ _ _ _ Hne Hk Hj Hb) as (r' & Hr' & Hrb). by eapply (Hcmp r r' j). }
  exists z. split; [|by apply Hs]. unfold larry_unflatten.
  assert (Hnd : lndim y = 1).
  { change (lndim y) with (length (lshape y)). by rewrite <-Hsh. }
  rewrite decide_False by lia.
  rewrite decide_False by (rewrite <-Hsh; intros [= E]; by destruct rows).
  destruct (data (larr y)) as [|v x] eqn:E; [destruct rows; done|]. rewrite <-E in *. rewrite E at 1. simpl.
  assert (isscalar v = true) as ->.
  { rewrite Forall_forall in Ht. specialize (Ht v). rewrite E in Ht.
    assert (Hin : has_dtype (ldtype y) v = true) by (apply Ht; left).
    destruct Hd as [Hd|Hd]; rewrite Hd in Hin; by destruct v. }
  unfold axis_label. rewrite Hl. simpl. rewrite mapR_lab_items. done.
Qed.

(** Lists of values that do not fit the labels. *)
Lemma fromlist_any rows xs k :
  rows <> [] -> k <> 0 -> Forall (fun r => length r = k) rows -> length xs = length rows -> Forall is_numeric xs ->
  (forall p q j a b, p ∈ rows -> q ∈ rows -> p !! j = Some a -> q !! j = Some b -> a = b \/ comparable a b = true) ->
  exists z, larry_fromlist (Some (xs, rows)) = Ok z /\ length (llabel z) = k /\ tabulates (zip rows xs) z.
Proof.
  intros Hne Hk0 Hk Hlen Hnum Hcmp. destruct (fromlists_spec rows xs k Hne Hk0 Hk Hlen) as [H1 H2]. destruct H2 as [z Hz]; [done| |].
  { intros j col Hj a b Ha Hb. destruct (column_elem _ _ _ _ _ Hne Hk Hj Ha) as (r & Hr & Hra).
    destruct (column_elem _ _ _ _ _ Hne Hk Hj Hb) as (r' & Hr' & Hrb). by eapply (Hcmp r r' j). }
  exists z. split; [done|]. by apply H1.
Qed.
Lemma fromlist_places rows xs k :
  rows <> [] -> k <> 0 -> Forall (fun r => length r = k) rows -> Forall is_numeric xs ->
  (forall p q j a b, p ∈ rows -> q ∈ rows -> p !! j = Some a -> q !! j = Some b -> a = b \/ comparable a b = true) ->
  exists r, mapR list2index (py_zip rows) = Ok r /\ length (py_zip r.*1) = length rows /\ py_zip rows <> [] /\
    mapR (store DFloat) xs = Ok (val_to_float <$> xs).
Proof.
  intros Hne Hk0 Hk Hnum Hcmp. destruct (py_zip_lookup rows k Hne Hk) as [Hlc Hcol].
  destruct (mapR_total list2index (py_zip rows)) as [r Hr].
  { intros col [j Hj]%elem_of_list_lookup. destruct (list2index_ok col) as (idx & u & ?); [|eauto]. apply sortable_spec.
    intros a b Ha Hb. destruct (column_elem _ _ _ _ _ Hne Hk Hj Ha) as (p & Hp & Hpa).
    destruct (column_elem _ _ _ _ _ Hne Hk Hj Hb) as (q & Hq & Hqb). by eapply (Hcmp p q j). }
  exists r. split; [done|]. apply mapR_ok in Hr. assert (Hlr : length r = k) by (apply Forall2_length in Hr; lia).
  destruct (py_zip_lookup r.*1 (length rows)) as [-> _].
  - intros E. apply (f_equal length) in E. rewrite fmap_length in E. simpl in E. lia.
  - apply Forall_lookup. intros j idx Hi. rewrite list_lookup_fmap in Hi. apply fmap_Some in Hi as ([idx' u] & Hrj & ->).
    destruct (Forall2_lookup_r _ _ _ _ _ Hr Hrj) as (col & Hcj & Hl). apply list2index_spec in Hl as (_ & _ & Hm).
    apply mapM_length in Hm. destruct (Hcol _ _ Hcj) as [<- _]. simpl. lia.
  - split_and!; [done| |].
    + intros E. rewrite E in Hlc. simpl in Hlc. lia.
    + apply mapR_ok. apply Forall2_fmap_r, Forall_Forall2_diag. eapply Forall_impl; [exact Hnum|]. intros v Hv. cbn. by apply store_float.
Qed.
Lemma fromlist_length rows xs k :
  rows <> [] -> k <> 0 -> Forall (fun r => length r = k) rows -> Forall is_numeric xs ->
  (forall p q j a b, p ∈ rows -> q ∈ rows -> p !! j = Some a -> q !! j = Some b -> a = b \/ comparable a b = true) ->
  length xs <> length rows -> length xs <> 1 -> larry_fromlist (Some (xs, rows)) = Err ValueError.
Proof.
  intros Hne Hk0 Hk Hnum Hcmp Hl H1. destruct (fromlist_places rows xs k Hne Hk0 Hk Hnum Hcmp) as (r & Hr & Hpl & Hzne & Hvs).
  unfold larry_fromlist, fromlists. rewrite decide_False by naive_solver. rewrite Hr. cbn [mbind res_bind].
  rewrite decide_False by done. rewrite Hvs. cbn [mbind res_bind]. rewrite Hpl, fmap_length. rewrite decide_False by done.
  by destruct xs as [|v [|w xs]].
Qed.
Lemma fromlist_single rows v k :
  rows <> [] -> k <> 0 -> Forall (fun r => length r = k) rows -> is_numeric v ->
  (forall p q j a b, p ∈ rows -> q ∈ rows -> p !! j = Some a -> q !! j = Some b -> a = b \/ comparable a b = true) ->
  exists z, larry_fromlist (Some ([v], rows)) = Ok z /\ length (llabel z) = k /\ tabulates ((fun r => (r, v)) <$> rows) z.
Proof.
  intros Hne Hk0 Hk Hnum Hcmp.
  destruct (fromlist_any rows (replicate (length rows) v) k) as (z & Hz & Hlz & Ht); try done.
  { by rewrite replicate_length. } { by apply Forall_replicate. }
  exists z. split; [|split; [done|]].
  - rewrite <-Hz. destruct (fromlist_places rows [v] k) as (r & Hr & Hpl & Hzne & Hvs); try done; [by constructor|].
    destruct (fromlist_places rows (replicate (length rows) v) k) as (r' & Hr' & _ & _ & Hvs'); try done; [by apply Forall_replicate|].
    unfold larry_fromlist, fromlists. rewrite !decide_False by naive_solver. rewrite Hr. cbn [mbind res_bind].
    rewrite Hvs, Hvs'. cbn [mbind res_bind]. rewrite Hpl, (fmap_length val_to_float (replicate (length rows) v)), replicate_length, (decide_True (P := length rows = length rows)) by done.
    rewrite fmap_replicate. destruct (decide (length (val_to_float <$> [v]) = length rows)) as [E|E]; [|done].
    cbn in E. rewrite <-E. done.
  - replace ((fun r => (r, v)) <$> rows) with (zip rows (replicate (length rows) v)); [done|].
    clear. induction rows as [|r rows IH]; [done|]. csimpl. by rewrite IH.
Qed.
