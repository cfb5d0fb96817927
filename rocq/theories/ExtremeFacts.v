(** The largest and the smallest label. *)
From Verif Require Export SpecExtreme OrderFacts LarryFacts SpecFacts.

Lemma lab_ltR_ok a b r : lab_ltR a b = Ok r -> (r = true <-> lab_lt a b).
Proof. unfold lab_ltR. destruct (_ || _); [|done]. intros [= <-]. apply bool_decide_eq_true. Qed.
Lemma lab_ltR_total a b : a = b \/ orderable a b -> exists r, lab_ltR a b = Ok r.
Proof.
  unfold lab_ltR. intros [->|H%comparable_spec]; [rewrite bool_decide_true by done; simpl; eauto|]. rewrite H, orb_true_r. eauto.
Qed.
Lemma lab_ltR_err a b e : lab_ltR a b = Err e -> e = TypeError.
Proof. unfold lab_ltR. destruct (_ || _); [done|]. by intros [= <-]. Qed.

Lemma py_max_from_spec l : forall m r, py_max_from m l = Ok r -> r ∈ m :: l /\ forall x, x ∈ m :: l -> x = r \/ lab_lt x r.
Proof.
  induction l as [|z l IH]; intros m r H; simpl in H.
  - injection H as ->. split; [constructor|]. intros x Hx%elem_of_list_singleton. by left.
  - apply bind_ok in H as (b & Hb%lab_ltR_ok & H). destruct (IH _ _ H) as [Hr Hx]. destruct b.
    + split; [by constructor|]. intros x Hin. apply elem_of_cons in Hin as [->|Hin]; [|by apply Hx].
      right. assert (lab_lt m z) as Hmz by (by apply Hb). destruct (Hx z) as [->|Hz]; [constructor|done|]. by eapply lab_lt_trans.
    + split; [apply elem_of_cons in Hr as [->|Hr]; [constructor|by constructor; constructor]|].
      intros x Hin. rewrite !elem_of_cons in Hin. destruct Hin as [->|[->|Hin]]; [apply Hx; constructor| |apply Hx; by constructor].
      assert (~ lab_lt m z) as Hn by (intros Hc; apply Hb in Hc; done).
      assert (z = m \/ lab_lt z m) as [->|Hzm] by (destruct (lab_total z m) as [?|[?|?]]; auto; done); [apply Hx; constructor|].
      destruct (Hx m) as [->|Hm]; [constructor|by right|]. right. by eapply lab_lt_trans.
Qed.
Lemma py_min_from_spec l : forall m r, py_min_from m l = Ok r -> r ∈ m :: l /\ forall x, x ∈ m :: l -> x = r \/ lab_lt r x.
Proof.
  induction l as [|z l IH]; intros m r H; simpl in H.
  - injection H as ->. split; [constructor|]. intros x Hx%elem_of_list_singleton. by left.
  - apply bind_ok in H as (b & Hb%lab_ltR_ok & H). destruct (IH _ _ H) as [Hr Hx]. destruct b.
    + split; [by constructor|]. intros x Hin. apply elem_of_cons in Hin as [->|Hin]; [|by apply Hx].
      right. assert (lab_lt z m) as Hmz by (by apply Hb). destruct (Hx z) as [->|Hz]; [constructor|done|]. by eapply lab_lt_trans.
    + split; [apply elem_of_cons in Hr as [->|Hr]; [constructor|by constructor; constructor]|].
      intros x Hin. rewrite !elem_of_cons in Hin. destruct Hin as [->|[->|Hin]]; [apply Hx; constructor| |apply Hx; by constructor].
      assert (~ lab_lt z m) as Hn by (intros Hc; apply Hb in Hc; done).
      assert (z = m \/ lab_lt m z) as [->|Hzm] by (destruct (lab_total z m) as [?|[?|?]]; auto; done); [apply Hx; constructor|].
      destruct (Hx m) as [->|Hm]; [constructor|by right|]. right. by eapply lab_lt_trans.
Qed.
Lemma py_max_from_total l : forall m, same_kind (m :: l) -> exists r, py_max_from m l = Ok r.
Proof.
  induction l as [|z l IH]; intros m Hk; [by eexists|]. simpl. destruct (lab_ltR_total m z) as [b ->].
  { apply Hk; [constructor|constructor; constructor]. } simpl. apply IH. intros p q Hp Hq.
  apply Hk; [destruct b|destruct b]; rewrite ?elem_of_cons in *; tauto.
Qed.
Lemma py_min_from_total l : forall m, same_kind (m :: l) -> exists r, py_min_from m l = Ok r.
Proof.
  induction l as [|z l IH]; intros m Hk; [by eexists|]. simpl. destruct (lab_ltR_total z m) as [b ->].
  { apply Hk; [constructor; constructor|constructor]. } simpl. apply IH. intros p q Hp Hq.
  apply Hk; [destruct b|destruct b]; rewrite ?elem_of_cons in *; tauto.
Qed.
Lemma py_max_from_err l : forall m e, py_max_from m l = Err e -> e = TypeError.
Proof. induction l as [|z l IH]; intros m e H; simpl in H; [done|]. destruct (lab_ltR m z) as [b|e'] eqn:E; simpl in H; [by eapply IH|]. injection H as <-. by eapply lab_ltR_err. Qed.
Lemma py_min_from_err l : forall m e, py_min_from m l = Err e -> e = TypeError.
Proof. induction l as [|z l IH]; intros m e H; simpl in H; [done|]. destruct (lab_ltR z m) as [b|e'] eqn:E; simpl in H; [by eapply IH|]. injection H as <-. by eapply lab_ltR_err. Qed.

(** Both at once. *)
Definition py_ext (least : bool) : list lab -> res lab := if least then py_min else py_max.
Definition ext_lt (least : bool) (x r : lab) : Prop := if least then lab_lt r x else lab_lt x r.
Lemma py_ext_spec least l r : py_ext least l = Ok r -> r ∈ l /\ forall x, x ∈ l -> x = r \/ ext_lt least x r.
Proof. destruct least, l; try done; [apply py_min_from_spec|apply py_max_from_spec]. Qed.
Lemma py_ext_total least l : l <> [] -> same_kind l -> exists r, py_ext least l = Ok r.
Proof. destruct least, l; try done; intros _; [apply py_min_from_total|apply py_max_from_total]. Qed.
Lemma py_ext_nil least : py_ext least [] = Err ValueError. Proof. by destruct least. Qed.
Lemma ext_lt_trans least x y z : ext_lt least x y -> ext_lt least y z -> ext_lt least x z.
Proof. destruct least; simpl; intros H1 H2; by eapply lab_lt_trans. Qed.

Definition extlabel (least : bool) (y : larry) (axis : option Z) : res lab := if least then minlabel y axis else maxlabel y axis.
Lemma extlabel_def least y axis : extlabel least y axis =
  match axis with
  | None => ms ← mapR (py_ext least) (llabel y); py_ext least ms
  | Some axis => ax ← py_axis y axis; l ← axis_label y ax; py_ext least l
  end.
Proof. by destruct least. Qed.
Lemma axis_label_run y a ax l : axis_is y a ax -> llabel y !! ax = Some l -> (ax ← py_axis y a; axis_label y ax) = Ok l.
Proof. intros Ha%py_axis_is Hl. rewrite Ha. unfold axis_label. simpl. by rewrite Hl. Qed.
Lemma extlabel_spec least y axis m : extlabel least y axis = Ok m ->
  looked_at y axis m /\ forall x, looked_at y axis x -> x = m \/ ext_lt least x m.
Proof.
  rewrite extlabel_def. destruct axis as [a|].
  - intros (ax & Ha & (l & Hl & H)%bind_ok)%bind_ok. apply py_axis_is in Ha. apply axis_label_ok in Hl. destruct (py_ext_spec _ _ _ H) as [Hm Hx].
    split; [exists ax, l; done|]. intros x (ax' & l' & Hl' & Hx' & Ha'). assert (ax' = ax) as -> by (apply py_axis_is in Ha, Ha'; congruence).
    apply Hx. congruence.
  - intros (ms & Hms%mapR_ok & H)%bind_ok. destruct (py_ext_spec _ _ _ H) as [Hm Hx]. split.
    + apply elem_of_list_lookup in Hm as [i Hi]. destruct (Forall2_lookup_r _ _ _ _ _ Hms Hi) as (l & Hl & Hli).
      apply py_ext_spec in Hli as [Hli _]. by exists i, l.
    + intros x (ax & l & Hl & Hxl & _). destruct (Forall2_lookup_l _ _ _ _ _ Hms Hl) as (r & Hr & Hlr).
      apply py_ext_spec in Hlr as [_ Hlr]. destruct (Hx r) as [->|Hrm]; [by eapply elem_of_list_lookup_2|by apply Hlr|].
      right. destruct (Hlr x Hxl) as [->|?]; [done|]. by eapply ext_lt_trans.
Qed.
Lemma extlabel_total least y axis : valid y ->
  (match axis with None => Forall (fun l => l <> []) (llabel y) | Some a => exists ax l, axis_is y a ax /\ llabel y !! ax = Some l /\ l <> [] end) ->
  (forall a b, looked_at y axis a -> looked_at y axis b -> a = b \/ orderable a b) -> exists m, extlabel least y axis = Ok m.
Proof.
  intros Hv Hne Hk. rewrite extlabel_def. destruct axis as [a|].
  - destruct Hne as (ax & l & Ha & Hl & Hne). pose proof Ha as Hpa. apply py_axis_is in Hpa. rewrite Hpa. cbn [mbind res_bind].
    unfold axis_label. rewrite Hl. cbn [mbind res_bind of_opt]. apply py_ext_total; [done|]. intros p q Hp Hq. apply Hk; by exists ax, l.
  - destruct (mapR_total (py_ext least) (llabel y)) as [ms Hms].
    { intros l Hl. apply py_ext_total; [by eapply Forall_forall in Hne|]. apply elem_of_list_lookup in Hl as [i Hi]. intros p q Hp Hq. apply Hk; by exists i, l. }
    rewrite Hms. cbn [mbind res_bind]. apply mapR_ok in Hms. apply py_ext_total.
    + intros ->. apply Forall2_nil_inv_r in Hms. destruct Hv as (_ & Hn & _). done.
    + assert (Hel : forall r, r ∈ ms -> looked_at y None r).
      { intros r Hr. apply elem_of_list_lookup in Hr as [i Hi]. destruct (Forall2_lookup_r _ _ _ _ _ Hms Hi) as (l & Hl & Hli).
        apply py_ext_spec in Hli as [Hli _]. by exists i, l. }
      intros p q Hp Hq. apply Hk; by apply Hel.
Qed.
Lemma extlabel_empty least y a ax : axis_is y a ax -> llabel y !! ax = Some [] -> extlabel least y (Some a) = Err ValueError.
Proof. intros Ha%py_axis_is Hl. rewrite extlabel_def. rewrite Ha. cbn [mbind res_bind]. unfold axis_label. rewrite Hl. simpl. apply py_ext_nil. Qed.
Lemma extlabel_bad least y a : (forall ax, ~ axis_is y a ax) -> extlabel least y (Some a) = Err IndexError.
Proof.
  intros Hn. rewrite extlabel_def. destruct (py_axis y a) as [ax|e] eqn:E; [by apply py_axis_is, Hn in E|].
  unfold py_axis in E. destruct (py_index _ _); [done|]. simpl in E. by injection E as <-.
Qed.
Lemma extlabel_empty_all least y : Exists (fun l => l = []) (llabel y) ->
  (forall l, l ∈ llabel y -> same_kind l) -> extlabel least y None = Err ValueError.
Proof.
  intros He Hk. rewrite extlabel_def. assert (mapR (py_ext least) (llabel y) = Err ValueError) as ->; [|done].
  induction He as [l L ->|l L He IH]; cbn [mapR]; [by rewrite py_ext_nil|]. destruct (decide (l = [])) as [->|Hne]; [by rewrite py_ext_nil|].
  destruct (py_ext_total least l Hne) as [r ->]; [apply Hk; constructor|]. cbn [mbind res_bind]. rewrite IH; [done|]. intros l' Hl'. apply Hk. by constructor.
Qed.

(** * Statements *)
Lemma maxlabel_spec y axis m : maxlabel y axis = Ok m -> looked_at y axis m /\
  forall x, looked_at y axis x -> plain x -> plain m -> orderable x m -> x = m \/ before x m.
Proof. intros H. destruct (extlabel_spec false y axis m H) as [Hm Hx]. split; [done|]. intros x Hl Hp Hq Ho. destruct (Hx x Hl) as [->|Hlt]; [by left|right]. by apply before_lab_lt. Qed.
Lemma orderable_sym a b : orderable a b -> orderable b a.
Proof.
  induction 1; try (constructor; tauto); try done; constructor; done.
Qed.
Lemma minlabel_spec y axis m : minlabel y axis = Ok m -> looked_at y axis m /\
  forall x, looked_at y axis x -> plain x -> plain m -> orderable x m -> x = m \/ before m x.
Proof.
  intros H. destruct (extlabel_spec true y axis m H) as [Hm Hx]. split; [done|]. intros x Hl Hp Hq Ho. destruct (Hx x Hl) as [->|Hlt]; [by left|right].
  apply before_lab_lt; [done|done|by apply orderable_sym|done].
Qed.
Lemma ext_succeeds y axis : valid y ->
  (match axis with None => Forall (fun l => l <> []) (llabel y) | Some a => exists ax l, axis_is y a ax /\ llabel y !! ax = Some l /\ l <> [] end) ->
  (forall a b, looked_at y axis a -> looked_at y axis b -> a = b \/ orderable a b) ->
  (exists m, maxlabel y axis = Ok m) /\ (exists m, minlabel y axis = Ok m).
Proof. intros H1 H2 H3. exact (conj (extlabel_total false y axis H1 H2 H3) (extlabel_total true y axis H1 H2 H3)). Qed.
Lemma ext_empty y a ax : axis_is y a ax -> llabel y !! ax = Some [] -> maxlabel y (Some a) = Err ValueError /\ minlabel y (Some a) = Err ValueError.
Proof. intros H1 H2. exact (conj (extlabel_empty false y a ax H1 H2) (extlabel_empty true y a ax H1 H2)). Qed.
Lemma ext_empty_all y : [] ∈ llabel y -> (forall l, l ∈ llabel y -> same_kind l) -> maxlabel y None = Err ValueError /\ minlabel y None = Err ValueError.
Proof.
  intros H1 H2. assert (He : Exists (fun l => l = []) (llabel y)) by (apply Exists_exists; by exists []).
  exact (conj (extlabel_empty_all false y He H2) (extlabel_empty_all true y He H2)).
Qed.
Lemma ext_bad y a : (forall ax, ~ axis_is y a ax) -> maxlabel y (Some a) = Err IndexError /\ minlabel y (Some a) = Err IndexError.
Proof. intros H. exact (conj (extlabel_bad false y a H) (extlabel_bad true y a H)). Qed.
