(** What calls do to memory: frame and ownership. *)
From Verif Require Export SessionFacts.
From Verif Require Export SpecHeap.

(** * New memory *)

Lemma prefix_insert_new {A} (l0 l : list A) i x : l0 `prefix_of` l -> length l0 <= i -> l0 `prefix_of` <[i := x]> l.
Proof.
  intros [k ->] Hi. exists (<[i - length l0 := x]> k).
  rewrite insert_app_r_alt by done. done.
Qed.
Lemma prefix_lookup_old {A} (l0 l : list A) i x : l0 `prefix_of` l -> l0 !! i = Some x -> l !! i = Some x.
Proof. intros [k ->] H. by apply lookup_app_l_Some. Qed.

(** [h] extends [h0]; the larrys made since [h0] consist of label lists in
    [PL], arrays in [PA] and new outer lists. *)
Record inv (h0 : heap) (PL : nat -> Prop) (PA : harr -> Prop) (h : heap) : Prop := Inv {
  inv_bufs : h_bufs h0 `prefix_of` h_bufs h;
  inv_lists : h_lists h0 `prefix_of` h_lists h;
  inv_outers : h_outers h0 `prefix_of` h_outers h;
  inv_objs : h_objs h0 `prefix_of` h_objs h;
  inv_new_outer : forall o is, length (h_outers h0) <= o -> h_outers h !! o = Some is -> Forall PL is;
  inv_new_obj : forall p ob, length (h_objs h0) <= p -> h_objs h !! p = Some ob ->
    PA (o_x ob) /\ length (h_outers h0) <= o_label ob }.

Definition newL (h0 : heap) (i : nat) : Prop := length (h_lists h0) <= i.
Definition newA (h0 : heap) (a : harr) : Prop := length (h_bufs h0) <= a_buf a.
Definition newO (h0 : heap) (o : nat) : Prop := length (h_outers h0) <= o.
Definition newP (h0 : heap) (p : nat) : Prop := length (h_objs h0) <= p.

Record setting := Setting {
  s_h0 : heap; s_L : nat -> Prop; s_A : harr -> Prop;
  s_newL : forall i, newL s_h0 i -> s_L i;
  s_newA : forall a, newA s_h0 a -> s_A a }.
Definition Inv' (s : setting) (h : heap) : Prop := inv (s_h0 s) (s_L s) (s_A s) h.

Definition ok (s : setting) {A} (m : cmd A) (Q : A -> Prop) : Prop :=
  forall h, Inv' s h -> Inv' s (fst (m h)) /\ forall a, snd (m h) = Ok a -> Q a.

Section rules.
Context (s : setting).
Notation h0 := (s_h0 s).

Lemma ok_bind {A B} (m : cmd A) (f : A -> cmd B) Q R :
  ok s m Q -> (forall a, Q a -> ok s (f a) R) -> ok s (x ← m; f x) R.
Proof.
  intros Hm Hf h Hh. destruct (Hm h Hh) as [Hh' Ha]. unfold mbind, cmd_bind.
  destruct (m h) as [h' [a|e]]; simpl in *.
  - apply Hf; [by apply Ha|done].
  - split; [done|]. intros a [=].
Qed.
Lemma ok_weak {A} (m : cmd A) (Q R : A -> Prop) : ok s m Q -> (forall a, Q a -> R a) -> ok s m R.
Proof. intros Hm HQ h Hh. destruct (Hm h Hh) as [Hh' Ha]. split; [done|]. intros a Hr. by apply HQ, Ha. Qed.
Lemma ok_ret {A} (a : A) (Q : A -> Prop) : Q a -> ok s (ret a) Q.
Proof. intros Ha h Hh. split; [done|]. by intros b [= <-]. Qed.
Lemma ok_lift {A} (r : res A) : ok s (lift r) (fun _ => True).
Proof. intros h Hh. by split. Qed.
Lemma ok_lift_eq {A} (r : res A) : ok s (lift r) (fun a => r = Ok a).
Proof. intros h Hh. by split. Qed.
Lemma ok_look {A} (f : heap -> option A) : ok s (look f) (fun _ => True).
Proof. intros h Hh. by split. Qed.
Lemma ok_alloc x : ok s (alloc x) (newA h0).
Proof.
  intros h [Hb Hl Ho Hp Hno Hnp]. simpl. split.
  - split; simpl; try done. by apply prefix_app_r.
  - intros a [= <-]. unfold newA. simpl. by apply prefix_length.
Qed.
Lemma ok_new_list l : ok s (new_list l) (newL h0).
Proof.
  intros h [Hb Hl Ho Hp Hno Hnp]. simpl. split.
  - split; simpl; try done. by apply prefix_app_r.
  - intros a [= <-]. by apply prefix_length.
Qed.
Lemma ok_new_outer is : Forall (s_L s) is -> ok s (new_outer is) (newO h0).
Proof.
  intros His h [Hb Hl Ho Hp Hno Hnp]. simpl. split.
  - split; simpl; try done. { by apply prefix_app_r. }
    intros o is' Ho' [Hlk|[Hlen Hlk]]%lookup_app_Some; [by eapply Hno|].
    apply list_lookup_singleton_Some in Hlk as [_ <-]. done.
  - intros a [= <-]. by apply prefix_length.
Qed.
Lemma ok_new_obj a o : s_A s a -> newO h0 o -> ok s (new_obj a o) (newP h0).
Proof.
  intros Ha Hoo h [Hb Hl Ho Hp Hno Hnp]. simpl. split.
  - split; simpl; try done. { by apply prefix_app_r. }
    intros o' is' Ho' [Hlk|[Hlen Hlk]]%lookup_app_Some; [by eapply Hnp|].
    apply list_lookup_singleton_Some in Hlk as [_ <-]. done.
  - intros b [= <-]. by apply prefix_length.
Qed.
Lemma ok_set_obj p f : newP h0 p ->
  (forall ob, s_A s (o_x ob) -> newO h0 (o_label ob) -> s_A s (o_x (f ob)) /\ newO h0 (o_label (f ob))) ->
  ok s (set_obj p f) (fun _ => True).
Proof.
  intros Hnew Hf h Hh. unfold set_obj. destruct (h_objs h !! p) as [ob|] eqn:Hob; simpl; [|by split].
  destruct Hh as [Hb Hl Ho Hp Hno Hnp]. split; [|done]. split; simpl; try done.
  - by apply prefix_insert_new.
  - intros p' ob' Hp' Hlk. destruct (decide (p = p')) as [<-|Hne].
    + rewrite list_lookup_insert in Hlk by (by eapply lookup_lt_Some). injection Hlk as <-.
      destruct (Hnp p ob) as [? ?]; [done..|]. by apply Hf.
    + rewrite list_lookup_insert_ne in Hlk by done. by eapply Hnp.
Qed.
Lemma ok_set_x p a : newP h0 p -> s_A s a -> ok s (set_x p a) (fun _ => True).
Proof. intros Hp Ha. apply ok_set_obj; [done|]. intros ob _ Ho. by split. Qed.
Lemma ok_set_label p o : newP h0 p -> newO h0 o -> ok s (set_label p o) (fun _ => True).
Proof. intros Hp Ha. apply ok_set_obj; [done|]. intros ob Hx _. by split. Qed.
Lemma ok_set_outer o is : newO h0 o -> Forall (s_L s) is -> ok s (set_outer o is) (fun _ => True).
Proof.
  intros Hnew His h Hh. unfold set_outer. destruct (h_outers h !! o) as [is0|] eqn:Hob; simpl; [|by split].
  destruct Hh as [Hb Hl Ho Hp Hno Hnp]. split; [|done]. split; simpl; try done.
  - by apply prefix_insert_new.
  - intros o' is' Ho' Hlk. destruct (decide (o = o')) as [<-|Hne].
    + rewrite list_lookup_insert in Hlk by (by eapply lookup_lt_Some). by injection Hlk as <-.
    + rewrite list_lookup_insert_ne in Hlk by done. by eapply Hno.
Qed.
Lemma ok_write a x : newA h0 a -> ok s (write a x) (fun _ => True).
Proof.
  intros Hnew h Hh. unfold write. destruct (h_bufs h !! a_buf a) as [[dt d]|] eqn:Hob; simpl; [|by split].
  case_decide; simpl; [|by split].
  destruct Hh as [Hb Hl Ho Hp Hno Hnp]. split; [|done]. split; simpl; try done. by apply prefix_insert_new.
Qed.
Lemma ok_ld_x p : newP h0 p -> ok s (ld_x p) (s_A s).
Proof.
  intros Hp h Hh. split; [done|]. intros a Ha. unfold ld_x, look in Ha. simpl in Ha.
  destruct (h_objs h !! p) as [ob|] eqn:Hob; simpl in Ha; [|discriminate].
  injection Ha as <-. by eapply inv_new_obj.
Qed.
Lemma ok_ld_label p : newP h0 p -> ok s (ld_label p) (newO h0).
Proof.
  intros Hp h Hh. split; [done|]. intros a Ha. unfold ld_label, look in Ha. simpl in Ha.
  destruct (h_objs h !! p) as [ob|] eqn:Hob; simpl in Ha; [|discriminate].
  injection Ha as <-. by eapply inv_new_obj.
Qed.
Lemma ok_get_outer o : newO h0 o -> ok s (get_outer o) (Forall (s_L s)).
Proof.
  intros Hp h Hh. split; [done|]. intros a Ha. unfold get_outer, look in Ha. simpl in Ha.
  destruct (h_outers h !! o) as [ob|] eqn:Hob; simpl in Ha; [|discriminate].
  injection Ha as <-. by eapply inv_new_outer.
Qed.
Lemma ok_mapC {X Y} (f : X -> cmd Y) l (Q : Y -> Prop) :
  (forall x, x ∈ l -> ok s (f x) Q) -> ok s (mapC f l) (Forall Q).
Proof.
  induction l as [|x l IH]; intros Hf; simpl; [by apply ok_ret|].
  eapply ok_bind; [apply Hf; left|]. intros y Hy.
  eapply ok_bind; [apply IH; intros; apply Hf; by right|]. intros ys Hys.
  apply ok_ret. by constructor.
Qed.
Lemma ok_foldC {S X} (f : S -> X -> cmd S) (Q : S -> Prop) l a :
  Q a -> (forall b x, Q b -> ok s (f b x) Q) -> ok s (foldC f a l) Q.
Proof.
  intros Ha Hf. revert a Ha. induction l as [|x l IH]; intros a Ha; simpl; [by apply ok_ret|].
  eapply ok_bind; [by apply Hf|]. intros b Hb. by apply IH.
Qed.
(** A nonempty loop ends with a result of its body. *)
Lemma ok_foldC1 {S X} (f : S -> X -> cmd S) (Q : S -> Prop) l a :
  l <> [] -> (forall b x, ok s (f b x) Q) -> ok s (foldC f a l) Q.
Proof.
  destruct l as [|x l]; [done|]. intros _ Hf. simpl. eapply ok_bind; [apply Hf|].
  intros b Hb. apply ok_foldC; [done|]. intros; apply Hf.
Qed.
Lemma ok_view f a (Q : harr -> Prop) : (forall q, f (a_pos a) = Ok q -> Q (HArr (a_buf a) q)) -> ok s (view f a) Q.
Proof. intros HQ. unfold view. eapply ok_bind; [apply ok_lift_eq|]. intros q Hq. apply ok_ret. by apply HQ. Qed.
Lemma ok_err {A} e (Q : A -> Prop) : ok s (lift (Err e)) Q.
Proof. intros h Hh. split; [done|]. by intros a [=]. Qed.
End rules.

(** What is read of old objects. *)
Lemma read_arr_prefix h h' a x : h_bufs h `prefix_of` h_bufs h' -> read_arr h a = Some x -> read_arr h' a = Some x.
Proof.
  intros Hb. unfold read_arr. destruct (h_bufs h !! a_buf a) as [b|] eqn:Hlk; simpl; [|done].
  by rewrite (prefix_lookup_old _ _ _ _ Hb Hlk).
Qed.
Lemma mapM_lookup_prefix {X} (l l' : list X) is r : l `prefix_of` l' -> mapM (l !!.) is = Some r -> mapM (l' !!.) is = Some r.
Proof.
  intros Hl. rewrite !mapM_Some. induction 1; constructor; [by eapply prefix_lookup_old|done].
Qed.
Lemma read_label_prefix h h' o l : h_lists h `prefix_of` h_lists h' -> h_outers h `prefix_of` h_outers h' ->
  read_label h o = Some l -> read_label h' o = Some l.
Proof.
  intros Hl Ho. unfold read_label. destruct (h_outers h !! o) as [b|] eqn:Hlk; simpl; [|done].
  rewrite (prefix_lookup_old _ _ _ _ Ho Hlk). simpl. by apply mapM_lookup_prefix.
Qed.
Definition ext (h h' : heap) : Prop :=
  h_bufs h `prefix_of` h_bufs h' /\ h_lists h `prefix_of` h_lists h' /\
  h_outers h `prefix_of` h_outers h' /\ h_objs h `prefix_of` h_objs h'.
Lemma read_larry_ext h h' p y : ext h h' -> read_larry h p = Some y -> read_larry h' p = Some y.
Proof.
  intros (Hb & Hl & Ho & Hp). unfold read_larry. destruct (h_objs h !! p) as [ob|] eqn:Hlk; simpl; [|done].
  rewrite (prefix_lookup_old _ _ _ _ Hp Hlk). simpl.
  destruct (read_arr h _) as [x|] eqn:Hx; simpl; [|done]. rewrite (read_arr_prefix _ _ _ _ Hb Hx). simpl.
  destruct (read_label h _) as [l|] eqn:Hll; simpl; [|done]. by rewrite (read_label_prefix _ _ _ _ Hl Ho Hll).
Qed.
Lemma inv_ext s h : Inv' s h -> ext (s_h0 s) h.
Proof. by intros []. Qed.
Lemma read_larry_inv s h p y : Inv' s h -> read_larry (s_h0 s) p = Some y -> read_larry h p = Some y.
Proof. intros Hh. by apply read_larry_ext, inv_ext. Qed.

(** * Strict ownership: larrys made since [h0] have nothing of [h0] *)

Definition strict (h0 : heap) : setting := Setting h0 (newL h0) (newA h0) (fun _ H => H) (fun _ H => H).

Lemma Forall_set {X} (P : X -> Prop) l i x : Forall P l -> P x -> Forall P (<[i := x]> l).
Proof. intros Hl Hx. by apply Forall_insert. Qed.
Lemma Forall_remove {X} (P : X -> Prop) l i : Forall P l -> Forall P (remove_at i l).
Proof. apply Forall_delete. Qed.
Lemma Forall_insert_at {X} (P : X -> Prop) l i x : Forall P l -> P x -> Forall P (insert_at i x l).
Proof.
  intros Hl Hx. unfold insert_at. apply Forall_app.
  split; [by apply Forall_take|constructor; [done|by apply Forall_drop]].
Qed.
Lemma Forall_swap_at {X} (P : X -> Prop) l l' i j : Forall P l -> swap_at i j l = Some l' -> Forall P l'.
Proof.
  intros Hl. unfold swap_at.
  destruct (l !! i) as [a|] eqn:Ha; simpl; [|done].
  destruct (l !! j) as [b|] eqn:Hb; simpl; [|done].
  intros [= <-]. apply Forall_set; [apply Forall_set; [done|]|].
  - exact (Forall_lookup_1 _ _ _ _ Hl Ha).
  - exact (Forall_lookup_1 _ _ _ _ Hl Hb).
Qed.

Ltac prim :=
  first
  [ eapply ok_alloc | eapply ok_new_list
  | eapply ok_new_outer; solve [eauto using Forall_set, Forall_remove, Forall_insert_at]
  | eapply ok_new_obj; solve [eauto]
  | eapply ok_set_x; solve [eauto]
  | eapply ok_set_label; solve [eauto]
  | eapply ok_set_outer; solve [eauto using Forall_set, Forall_remove, Forall_insert_at]
  | eapply ok_write; solve [eauto]
  | eapply ok_ld_x; solve [eauto]
  | eapply ok_ld_label; solve [eauto]
  | eapply ok_get_outer; solve [eauto]
  | eapply ok_lift_eq | eapply ok_look ].
Ltac okt lems :=
  repeat lazymatch goal with
  | |- ok _ (mbind _ _) _ => eapply ok_bind; [first [solve [lems] | solve [prim]]|intros ? ?]
  | |- ok _ (ret _) _ => apply ok_ret
  | |- ok _ (lift (Err _)) _ => apply ok_err
  end.

Section strict.
Context (h0 : heap).
Notation S := (strict h0).

Lemma ok_copylabel s p : ok s (copylabel p) (newO (s_h0 s)).
Proof.
  unfold copylabel. eapply ok_bind; [apply ok_look|intros o _].
  eapply ok_bind; [apply ok_look|intros is _].
  eapply ok_bind; [apply (ok_mapC _ _ _ (newL (s_h0 s)))|intros js Hjs].
  - intros i _. eapply ok_bind; [apply ok_look|intros l _]. apply ok_new_list.
  - apply ok_new_outer. eapply Forall_impl; [exact Hjs|]. apply s_newL.
Qed.
Lemma ok_h_copy s p : ok s (h_copy p) (newP (s_h0 s)).
Proof.
  unfold h_copy. eapply ok_bind; [apply ok_copylabel|intros o Ho].
  eapply ok_bind; [apply ok_look|intros a _].
  eapply ok_bind; [apply ok_look|intros x _].
  eapply ok_bind; [apply ok_alloc|intros b Hb].
  apply ok_new_obj; [by apply s_newA|done].
Qed.
Lemma ok_h_new s z : ok s (h_new z) (newP (s_h0 s)).
Proof.
  unfold h_new. eapply ok_bind; [apply ok_alloc|intros a Ha].
  eapply ok_bind; [apply (ok_mapC _ _ _ (newL (s_h0 s))); intros; apply ok_new_list|intros is His].
  eapply ok_bind; [apply ok_new_outer; eapply Forall_impl; [exact His|]; apply s_newL|intros o Ho].
  apply ok_new_obj; [by apply s_newA|done].
Qed.

Ltac known := first [apply ok_copylabel | apply ok_h_copy | apply ok_h_new].
Ltac go := okt known; try (solve [known | prim | eauto | done]).

Lemma ok_set_axis o ax i : newO h0 o -> newL h0 i -> ok S (set_axis o ax i) (fun _ => True).
Proof. intros Ho Hi. unfold set_axis. go. Qed.
Lemma ok_pop_axis o ax : newO h0 o -> ok S (pop_axis o ax) (fun _ => True).
Proof. intros Ho. unfold pop_axis. go. Qed.
Ltac known ::= first [apply ok_copylabel | apply ok_h_copy | apply ok_h_new
  | apply ok_set_axis; eauto | apply ok_pop_axis; eauto].

Definition newR (r : hval) : Prop :=
  match r with HLarry q => newP h0 q | HNd a => newA h0 a | HScalar _ => True end.
Lemma ok_one m : ok S m (newP h0) -> ok S (one m) (Forall newR).
Proof. intros Hm. unfold one. eapply ok_bind; [exact Hm|]. intros q Hq. apply ok_ret. by repeat constructor. Qed.

Lemma ok_h_map f p : ok S (h_map f p) (newP h0).
Proof. unfold h_map. go. Qed.
Lemma ok_h_map_out f p : ok S (h_map_out f p) (Forall newR).
Proof.
  unfold h_map_out. go. destruct a0 as [z|v]; go; try (by repeat constructor). all: apply ok_one; go.
Qed.
Lemma ok_h_reduce f p axis : ok S (h_reduce f p axis) (Forall newR).
Proof.
  unfold h_reduce. go. destruct a0 as [z|v], axis as [ax|]; go; try (by repeat constructor).
  all: apply ok_one; go.
Qed.
Lemma ok_h_copy_write f p : ok S (h_copy_write f p) (newP h0).
Proof. unfold h_copy_write. go. Qed.
Lemma ok_h_copy_assign f p : ok S (h_copy_assign f p) (newP h0).
Proof. unfold h_copy_assign. go. Qed.
Lemma ok_h_cum op p axis : ok S (h_cum op p axis) (newP h0).
Proof. unfold h_cum. destruct axis as [ax|]; go. destruct (any_true _); go. Qed.
Lemma ok_h_prod p axis : ok S (h_prod p axis) (Forall newR).
Proof.
  unfold h_prod. go. eapply ok_bind; [apply ok_h_reduce|intros r Hr].
  destruct axis as [ax|]; go.
  - destruct (shape _) as [|? ?]; go; [destruct (forallb _ _); [by repeat constructor|done]|].
    destruct r as [|[q| |] [|]]; [by go| |by go..].
    assert (Hq : newP h0 q) by (by inversion Hr). go.
  - destruct (forallb _ _); [by repeat constructor|done].
Qed.

Lemma ok_h_maplabel_at q func axis : newP h0 q -> ok S (h_maplabel_at q func axis) (fun _ => True).
Proof. intros Hq. unfold h_maplabel_at. go. Qed.
Lemma ok_h_maplabel p func axis : ok S (h_maplabel p func axis true) (newP h0).
Proof.
  unfold h_maplabel. go.
  eapply ok_bind; [apply (ok_foldC _ _ (fun _ => True)); [done|intros ? ? _; by apply ok_h_maplabel_at]|intros ? ?]. go.
Qed.
Lemma ok_h_flip_at q axis : newP h0 q -> ok S (h_flip_at q axis) (fun _ => True).
Proof.
  intros Hq. unfold h_flip_at. go.
  eapply ok_bind; [apply (ok_view _ _ _ (newA h0)); done|intros ? ?]. go.
Qed.
Lemma ok_h_flipaxis p axis : ok S (h_flipaxis p axis true) (newP h0).
Proof.
  unfold h_flipaxis. go.
  eapply ok_bind; [apply (ok_foldC _ _ (fun _ => True)); [done|intros ? ? _; by apply ok_h_flip_at]|intros ? ?]. go.
Qed.
Lemma ok_h_take p indices axis : ok S (h_take p indices axis) (newP h0).
Proof. unfold h_take. go. Qed.
Lemma ok_h_keep_label p op axis : ok S (h_keep_label p op axis) (newP h0).
Proof. unfold h_keep_label. go. case_match; go. Qed.
Lemma ok_h_lag_by p axis sl sx : ok S (h_lag_by p axis sl sx) (newP h0).
Proof.
  unfold h_lag_by. go.
  eapply ok_bind; [apply (ok_view _ _ _ (newA h0)); done|intros ? ?]. go.
Qed.
Lemma ok_h_lag p nlag axis : ok S (h_lag p nlag axis) (newP h0).
Proof. unfold h_lag. go. case_decide; [apply ok_h_lag_by|]. case_decide; [apply ok_h_lag_by|]. go. Qed.
Lemma ok_h_T p : ok S (h_T p) (newP h0).
Proof.
  unfold h_T. go. eapply ok_bind; [apply (ok_view _ _ _ (newA h0)); done|intros ? ?]. go.
  eapply ok_bind; [apply ok_new_outer; by apply Forall_reverse|intros ? ?]. go.
Qed.
Lemma ok_h_swapaxes p a1 a2 : ok S (h_swapaxes p a1 a2) (newP h0).
Proof.
  unfold h_swapaxes. go.
  eapply ok_bind; [apply ok_set_outer; [done|]|].
  { cbn beta in *. rewrite of_opt_ok in H4. eapply Forall_swap_at; [exact H1|exact H4]. }
  intros ? ?. go. eapply ok_bind; [apply (ok_view _ _ _ (newA h0)); done|intros ? ?]. go.
Qed.
Lemma ok_h_insertaxis p axis label : ok S (h_insertaxis p axis label) (newP h0).
Proof.
  unfold h_insertaxis. go.
  cbn beta in *. simplify_eq. by apply ok_new_obj.
Qed.
Lemma ok_h_cut test cut p : ok S (h_cut test cut p) (newP h0).
Proof.
  unfold h_cut. go.
  eapply ok_bind; [apply (ok_mapC _ _ _ (newL h0))|].
  { intros [k l] _. simpl. destruct (cut k); [apply ok_new_list|].
    eapply ok_weak; [apply ok_lift_eq|]. intros i Hi. rewrite of_opt_ok in Hi.
    by eapply (Forall_lookup_1 (newL h0)). }
  intros ? ?. go.
Qed.
Lemma ok_h_vacuum p axis : ok S (h_vacuum p axis) (newP h0).
Proof. apply ok_h_cut. Qed.
Lemma ok_h_cut_missing p fraction axis : ok S (h_cut_missing p fraction axis) (newP h0).
Proof.
  unfold h_cut_missing. go. eapply ok_bind; [apply ok_h_cut|intros ? ?]. go. case_decide; go.
Qed.
Lemma ok_h_keep_x p op v vac : ok S (h_keep_x p op v vac) (newP h0).
Proof.
  unfold h_keep_x. go. destruct (vac && _); go. eapply ok_bind; [apply ok_h_copy_write|intros ? ?]. destruct vac; [apply ok_h_vacuum|by apply ok_ret].
Qed.
Lemma ok_h_morph p label axis : ok S (h_morph p label axis) (newP h0).
Proof. unfold h_morph. go. case_decide; go. Qed.
Lemma ok_h_binary f p1 p2 : ok S (h_binary f p1 p2) (newP h0).
Proof. unfold h_binary. go. case_decide; go. Qed.
Lemma ok_h_compare op p1 p2 : ok S (h_compare op p1 p2) (Forall newR).
Proof.
  unfold h_compare. go. case_match; [apply ok_one; go|]. apply ok_ret. by repeat constructor.
Qed.
Lemma ok_h_rsub other p : ok S (h_rsub other p) (newP h0).
Proof. unfold h_rsub. eapply ok_bind; [apply ok_h_map|intros; apply ok_h_map]. Qed.
Lemma ok_h_align_axis ps axis j : ok S (h_align_axis ps axis j) (Forall newR).
Proof.
  unfold h_align_axis. eapply ok_bind; [apply (ok_mapC _ _ _ (fun _ => True)); intros; apply ok_look|intros ? ?]. go.
  case_decide; go. apply ok_mapC. intros [k q] _. simpl. go.
  eapply ok_bind; [apply ok_h_morph|intros ? ?]. go.
Qed.
Lemma ok_h_make r : ok S (h_make r) (newP h0).
Proof. unfold h_make. go. Qed.
Lemma ok_h_fresh1 f p : ok S (h_fresh1 f p) (newP h0).
Proof. unfold h_fresh1. go. apply ok_h_make. Qed.

Ltac known ::= first [apply ok_copylabel | apply ok_h_copy | apply ok_h_new
  | apply ok_set_axis; eauto | apply ok_pop_axis; eauto | apply ok_h_morph].
Lemma ok_value s p : ok s (value p) (fun z => forall y, read_larry (s_h0 s) p = Some y -> z = y).
Proof.
  intros h Hh. split; [done|]. intros a Ha y Hy. unfold value, look in Ha. simpl in Ha.
  rewrite (read_larry_inv s h p y) in Ha by done. by injection Ha.
Qed.
(** The larry itself is returned only if it has no axis, which no larry has. *)
Definition newP_or (p q : nat) : Prop :=
  newP h0 q \/ q = p /\ forall y, read_larry h0 p = Some y -> lndim y = 0.
Lemma ok_h_morph_like p r : ok S (h_morph_like p r) (newP_or p).
Proof.
  unfold h_morph_like. eapply ok_bind; [apply ok_value|intros y Hy]. go. case_decide; go.
  destruct (seq 0 (lndim y)) as [|n l] eqn:E.
  - simpl. apply ok_ret. right. split; [done|]. intros y' Hy'. rewrite <-(Hy y' Hy').
    apply (f_equal length) in E. by rewrite seq_length in E.
  - rewrite <-E. eapply ok_weak; [apply (ok_foldC1 _ _ (newP h0)); [by rewrite E|]|by left]. intros. go.
Qed.
Lemma ok_h_sortaxis p axis rev : ok S (h_sortaxis p axis rev) (newP_or p).
Proof.
  unfold h_sortaxis. eapply ok_bind; [apply ok_value|intros y Hy].
  destruct (axes_of y axis) as [|n l] eqn:E.
  - simpl. apply ok_ret. right. split; [done|]. intros y' Hy'. rewrite <-(Hy y' Hy').
    destruct axis; [done|]. apply (f_equal length) in E. simpl in E. rewrite fmap_length, seq_length in E. done.
  - rewrite <-E. eapply ok_weak; [apply (ok_foldC1 _ _ (newP h0)); [by rewrite E|]|by left].
    intros b a. unfold h_sortaxis_step. go. case_decide; go.
Qed.

Definition al_ok (s : hal) : Prop :=
  (al_view1 (hal_st s) = true \/ newA h0 (hal_x1 s)) /\ (al_view2 (hal_st s) = true \/ newA h0 (hal_x2 s)).
Lemma align_step_view lar1 lar2 cast js st ax st' j : align_step lar1 lar2 cast js st ax = Ok st' -> js !! ax = Some j ->
  let moved := bool_decide (llabel lar1 !! ax <> llabel lar2 !! ax) in
  al_view1 st' = al_view1 st && negb (moved && took1 j) /\ al_view2 st' = al_view2 st && negb (moved && took2 j).
Proof.
  destruct st as [x1 m1 v1 x2 m2 v2 label]. unfold align_step. intros H Hj.
  apply bind_ok in H as (l1 & Hl1 & H). apply bind_ok in H as (l2 & Hl2 & H). apply bind_ok in H as (j' & Hj' & H).
  rewrite of_opt_ok in Hl1. rewrite of_opt_ok in Hl2. rewrite of_opt_ok in Hj'. simplify_eq. rewrite Hl1, Hl2.
  destruct j'; simpl in *; try (case_decide as Hd; [subst l2|]); repeat (destruct (listmap_fill _ _ _));
    repeat (apply bind_ok in H as (? & _ & H)); simplify_eq; simpl;
    case_bool_decide; try (exfalso; congruence); simpl; rewrite ?andb_true_r, ?andb_false_r; try done.
  do 2 destruct (listmap_fill _ _ _). repeat (apply bind_ok in H as (? & _ & H)). by simplify_eq.
Qed.
Lemma ok_h_align_step lar1 lar2 cast js s ax : al_ok s -> ok S (h_align_step lar1 lar2 cast js s ax) al_ok.
Proof.
  intros [H1 H2]. unfold h_align_step. go.
  match goal with H : (fun _ => align_step _ _ _ _ _ _ = _) _ |- _ => rename H into Hst end.
  match goal with H : (fun _ => of_opt _ _ = _) _ |- _ => rename H into Hj; rewrite of_opt_ok in Hj end.
  cbn beta in Hst. destruct (align_step_view _ _ _ _ _ _ _ _ Hst Hj) as [Hv1 Hv2].
  eapply (ok_bind _ _ _ (fun x => al_view1 a = true \/ newA h0 x)).
  { destruct (_ && took1 _) eqn:E; [eapply ok_weak; [apply ok_alloc|by right]|]. apply ok_ret.
    rewrite Hv1. simpl. rewrite andb_true_r. done. }
  intros b1 Hb1.
  eapply (ok_bind _ _ _ (fun x => al_view2 a = true \/ newA h0 x)).
  { destruct (_ && took2 _) eqn:E; [eapply ok_weak; [apply ok_alloc|by right]|]. apply ok_ret.
    rewrite Hv2. simpl. rewrite andb_true_r. done. }
  intros b2 Hb2. apply ok_ret. by split.
Qed.
Lemma ok_h_align_raw p1 p2 j cast : ok S (h_align_raw p1 p2 j cast) al_ok.
Proof.
  unfold h_align_raw. go. case_decide; go. apply ok_foldC; [split; by left|]. intros. by apply ok_h_align_step.
Qed.
Lemma ok_h_own a v label : v = true \/ newA h0 a -> ok S (h_own a v label) (newP h0).
Proof.
  intros Ha. unfold h_own. eapply (ok_bind _ _ _ (newA h0)).
  { destruct v; [go|]. apply ok_ret. by destruct Ha. }
  intros b Hb. eapply ok_bind; [apply (ok_mapC _ _ _ (newL h0)); intros; apply ok_new_list|intros is His]. go.
Qed.
Lemma ok_h_align p1 p2 j cast : ok S (h_align p1 p2 j cast) (Forall newR).
Proof.
  unfold h_align. go. eapply ok_bind; [apply ok_h_align_raw|intros s [H1 H2]]. go.
  eapply ok_bind; [by apply ok_h_own|intros q1 Hq1].
  eapply ok_bind; [by apply ok_h_own|intros q2 Hq2].
  apply ok_ret. by repeat constructor.
Qed.
Lemma ok_h_binaryop f p1 p2 j cast : ok S (h_binaryop f p1 p2 j cast None None) (newP h0).
Proof.
  unfold h_binaryop. eapply ok_bind; [apply ok_h_align_raw|intros s _]. go. case_decide; go.
Qed.
Lemma ok_h_getitem_own p ix : may_share (CGetitem 0 ix) = false -> ok S (h_getitem p ix) (Forall newR).
Proof.
  intros Hix. unfold h_getitem. eapply ok_bind; [apply ok_look|intros y _].
  eapply ok_bind; [apply ok_lift_eq|intros g Hg].
  do 3 (eapply ok_bind; [apply ok_look|intros ? _]).
  destruct g as [z|v|x].
  - destruct ix; try discriminate; go; apply ok_one; go.
  - apply ok_ret. by repeat constructor.
  - exfalso. destruct ix; try discriminate; cbn beta in Hg; unfold larry_getitem in Hg;
      repeat (apply bind_ok in Hg as (? & _ & Hg) || case_match || discriminate).
Qed.
End strict.

(** * Results that may be views *)

(** Parts that are new or belong to the larry [ob], [is]. *)
Definition viewL (h0 : heap) (is : list nat) (i : nat) : Prop := newL h0 i \/ i ∈ is.
Definition viewA (h0 : heap) (b : harr) (a : harr) : Prop :=
  newA h0 a \/ a_buf a = a_buf b /\ data (a_pos a) ⊆ data (a_pos b).
Definition viewed (h0 : heap) (b : harr) (is : list nat) : setting :=
  Setting h0 (viewL h0 is) (viewA h0 b) (fun _ H => or_introl H) (fun _ H => or_introl H).

Lemma gather_data {A} (a b : arr A) sh m : gather a sh m = Some b -> data b ⊆ data a.
Proof.
  unfold gather, build. rewrite fmap_Some. intros (l & Hl & ->). simpl. intros x Hx.
  apply mapM_Some in Hl. apply elem_of_list_lookup in Hx as [i Hi].
  destruct (Forall2_lookup_r _ _ _ _ _ Hl Hi) as (idx & _ & Hm).
  destruct (m idx) as [p|]; [|done]. simpl in Hm. unfold aget in Hm. case_decide; [|done].
  by apply elem_of_list_lookup_2 in Hm.
Qed.
Lemma np_getitem_data {A} (a b : arr A) items : np_getitem a items = Ok b -> data b ⊆ data a.
Proof.
  unfold np_getitem. intros H. apply bind_ok in H as (s & _ & H). rewrite of_opt_ok in H. by eapply gather_data.
Qed.
Lemma pick_axis_data {A} (a b : arr A) i ax : pick_axis a i ax = Some b -> data b ⊆ data a.
Proof.
  unfold pick_axis. destruct (axlen a ax); simpl; [|done]. apply gather_data.
Qed.

Section viewed.
Context (h0 : heap) (p : nat) (ob : hobj) (is : list nat).
Notation known := (h_objs h0 !! p = Some ob /\ h_outers h0 !! o_label ob = Some is).
Notation V := (viewed h0 (o_x ob) is).

Lemma ok_ld_x_old : known -> ok V (ld_x p) (fun a => a = o_x ob).
Proof.
  intros [Hob His] h Hh. split; [done|]. intros a Ha. unfold ld_x, look in Ha. simpl in Ha.
  rewrite (prefix_lookup_old _ _ _ _ (inv_objs _ _ _ _ Hh) Hob) in Ha. by injection Ha.
Qed.
Lemma ok_ld_label_old : known -> ok V (ld_label p) (fun o => o = o_label ob).
Proof.
  intros [Hob His] h Hh. split; [done|]. intros a Ha. unfold ld_label, look in Ha. simpl in Ha.
  rewrite (prefix_lookup_old _ _ _ _ (inv_objs _ _ _ _ Hh) Hob) in Ha. by injection Ha.
Qed.
Lemma ok_get_outer_old : known -> ok V (get_outer (o_label ob)) (fun i => i = is).
Proof.
  intros [Hob His] h Hh. split; [done|]. intros a Ha. unfold get_outer, look in Ha. simpl in Ha.
  rewrite (prefix_lookup_old _ _ _ _ (inv_outers _ _ _ _ Hh) His) in Ha. by injection Ha.
Qed.
Lemma is_viewL : Forall (viewL h0 is) is.
Proof. apply Forall_forall. intros i Hi. by right. Qed.
Lemma Forall_tail {X} (P : X -> Prop) l : Forall P l -> Forall P (tail l).
Proof. destruct 1; [constructor|done]. Qed.

Definition viewR (r : hval) : Prop :=
  match r with HLarry q => newP h0 q \/ q = p | HNd a => viewA h0 (o_x ob) a | HScalar _ => True end.
Lemma ok_one_V m : ok V m (newP h0) -> ok V (one m) (Forall viewR).
Proof. intros Hm. unfold one. eapply ok_bind; [exact Hm|]. intros q Hq. apply ok_ret. constructor; [by left|done]. Qed.
Lemma ok_view_of f : (forall x q, f x = Ok q -> data q ⊆ data x) -> ok V (view f (o_x ob)) (viewA h0 (o_x ob)).
Proof. intros Hf. apply ok_view. intros q Hq. right. split; [done|]. by apply Hf. Qed.
Lemma newL_viewL i : newL h0 i -> viewL h0 is i.
Proof. by left. Qed.
Lemma newA_viewA a : newA h0 a -> viewA h0 (o_x ob) a.
Proof. by left. Qed.

Lemma ok_h_getitem ix : known -> ok V (h_getitem p ix) (Forall viewR).
Proof.
  intros Hkn. unfold h_getitem. eapply ok_bind; [apply ok_look|intros y _].
  eapply ok_bind; [apply ok_lift_eq|intros g Hg].
  eapply ok_bind; [by apply ok_ld_x_old|intros ? ->].
  eapply ok_bind; [by apply ok_ld_label_old|intros ? ->].
  eapply ok_bind; [by apply ok_get_outer_old|intros ? ->].
  assert (forall o, newO h0 o -> forall b, viewA h0 (o_x ob) b -> ok V (one (new_obj b o)) (Forall viewR)) as Hone.
  { intros o Ho b Hb. apply ok_one_V. by apply ok_new_obj. }
  assert (forall items, ok V (view (fun x => np_getitem x items) (o_x ob)) (viewA h0 (o_x ob))) as Hview.
  { intros. apply ok_view_of. intros ? ?. apply np_getitem_data. }
  destruct g as [z|v|x].
  - destruct ix as [k|sl|zs|bs|m|items].
    + eapply ok_bind; [apply Hview|intros b Hb].
      eapply ok_bind; [apply ok_new_outer; apply Forall_tail, is_viewL|intros o Ho]. by apply Hone.
    + eapply ok_bind; [apply ok_lift|intros l _]. eapply ok_bind; [apply ok_new_list|intros i Hi].
      eapply ok_bind; [apply Hview|intros b Hb].
      eapply ok_bind; [apply ok_new_outer; apply Forall_set; [apply is_viewL|by left]|intros o Ho]. by apply Hone.
    + eapply ok_bind; [apply ok_lift|intros l _]. eapply ok_bind; [apply ok_new_list|intros i Hi].
      eapply ok_bind; [apply ok_alloc|intros b Hb].
      eapply ok_bind; [apply ok_new_outer; apply Forall_set; [apply is_viewL|by left]|intros o Ho].
      apply Hone; [done|by left].
    + eapply ok_bind; [apply ok_lift|intros l _]. eapply ok_bind; [apply ok_copylabel|intros o Ho].
      eapply ok_bind; [apply ok_new_list|intros i Hi].
      eapply ok_bind; [unfold set_axis; eapply ok_bind; [by apply ok_get_outer|intros js Hjs];
        apply ok_set_outer; [done|by apply Forall_set; [|left]]|intros _ _].
      eapply ok_bind; [apply ok_alloc|intros b Hb]. apply Hone; [done|by left].
    + eapply ok_bind; [apply ok_lift|intros l _]. eapply ok_bind; [apply ok_copylabel|intros o Ho].
      eapply ok_bind; [apply ok_new_list|intros i Hi].
      eapply ok_bind; [unfold set_axis; eapply ok_bind; [by apply ok_get_outer|intros js Hjs];
        apply ok_set_outer; [done|by apply Forall_set; [|left]]|intros _ _].
      eapply ok_bind; [apply ok_alloc|intros b Hb]. apply Hone; [done|by left].
    + eapply (ok_bind _ _ _ (Forall (fun o => match o with Some i => viewL h0 is i | None => True end))).
      { apply ok_mapC. intros ax _. eapply ok_bind; [apply ok_lift|intros sel _].
        destruct sel as [l|]; [|by apply ok_ret].
        destruct (items !! ax) as [it|]; [eapply ok_bind; [apply ok_new_list|intros i Hi]; apply ok_ret; by left|].
        eapply ok_bind; [apply ok_lift_eq|intros i Hi]. rewrite of_opt_ok in Hi. apply ok_ret.
        right. by eapply elem_of_list_lookup_2. }
      intros js Hjs.
      eapply (ok_bind _ _ _ (viewA h0 (o_x ob))).
      { destruct (existsb _ _); [|apply Hview]. eapply ok_weak; [apply ok_alloc|by left]. }
      intros b Hb. eapply ok_bind; [apply ok_new_outer|intros o Ho; by apply Hone].
      unfold somes. clear -Hjs. induction Hjs as [|[i|] js Hi _ IH]; simpl; by constructor || done.
  - apply ok_ret. by repeat constructor.
  - eapply ok_bind; [apply Hview|intros b Hb]. apply ok_ret. apply Forall_cons; done.
Qed.
Lemma ok_h_pull name axis : known -> ok V (h_pull p name axis) (Forall viewR).
Proof.
  intros Hkn. unfold h_pull. eapply ok_bind; [apply ok_look|intros y _]. eapply ok_bind; [apply ok_lift|intros g _].
  destruct g as [z|v]; [|apply ok_ret; by repeat constructor].
  do 3 (eapply ok_bind; [apply ok_lift|intros ? _]).
  eapply ok_bind; [by apply ok_ld_label_old|intros ? ->].
  eapply ok_bind; [by apply ok_get_outer_old|intros ? ->].
  eapply ok_bind; [by apply ok_ld_x_old|intros ? ->].
  eapply ok_bind; [apply ok_view_of|intros b Hb].
  { intros x q Hq. rewrite of_opt_ok in Hq. by eapply pick_axis_data. }
  eapply ok_bind; [apply ok_new_outer; apply Forall_remove, is_viewL|intros o Ho].
  apply ok_one_V. by apply ok_new_obj.
Qed.
Lemma ok_h_squeeze : known -> ok V (h_squeeze p) (newP h0).
Proof.
  intros Hkn. unfold h_squeeze. eapply ok_bind; [apply ok_look|intros y _].
  eapply ok_bind; [by apply ok_ld_label_old|intros ? ->].
  eapply ok_bind; [by apply ok_get_outer_old|intros ? ->].
  eapply ok_bind; [by apply ok_ld_x_old|intros ? ->].
  eapply ok_bind; [apply ok_view_of|intros b Hb]. { by intros x q [= <-]. }
  eapply ok_bind; [apply ok_new_outer|intros o Ho; by apply ok_new_obj].
  apply Forall_forall. intros i Hi. right. apply elem_of_list_fmap in Hi as ([n j] & -> & Hr).
  rewrite elem_of_list_filter in Hr. destruct Hr as [_ Hr]. by apply elem_of_zip_r in Hr.
Qed.
Lemma ok_h_lix_get ix : known -> ok V (h_lix_get p ix) (Forall viewR).
Proof.
  intros Hkn. unfold h_lix_get. eapply ok_bind; [apply ok_look|intros y _].
  case_decide. { apply ok_ret. constructor; [by right|done]. }
  case_decide; [apply ok_err|].
  destruct ix as [z|ls|sl|it]; [by apply ok_h_getitem| | |].
  - do 2 (eapply ok_bind; [apply ok_lift|intros ? _]). repeat case_match; by apply ok_h_getitem.
  - eapply ok_bind; [apply ok_lift|intros ? _]. by apply ok_h_getitem.
  - eapply ok_bind; [apply ok_lift|intros [z|v|x] _].
    + apply ok_one_V, ok_h_new.
    + apply ok_ret. by repeat constructor.
    + eapply ok_bind; [apply ok_alloc|intros b Hb]. apply ok_ret. constructor; [by left|done].
Qed.
End viewed.

(** * All calls *)

Lemma ok_arg s (ps : list nat) i : ok s (lift (of_opt IndexError (ps !! i))) (fun p => p ∈ ps).
Proof.
  eapply ok_weak; [apply ok_lift_eq|]. intros p Hp. rewrite of_opt_ok in Hp. by eapply elem_of_list_lookup_2.
Qed.
(** A larry without axes. *)
Definition no_axes (h0 : heap) (p : nat) : Prop := forall y, read_larry h0 p = Some y -> lndim y = 0.
Definition newR_or (h0 : heap) (ps : list nat) (r : hval) : Prop :=
  newR h0 r \/ exists p, r = HLarry p /\ p ∈ ps /\ no_axes h0 p.

Lemma ok_newR_or h0 ps m : ok (strict h0) m (Forall (newR h0)) -> ok (strict h0) m (Forall (newR_or h0 ps)).
Proof. intros Hm. eapply ok_weak; [exact Hm|]. intros rs Hrs. eapply Forall_impl; [exact Hrs|]. by left. Qed.
Lemma ok_one_or h0 ps p m : p ∈ ps -> ok (strict h0) m (newP_or h0 p) -> ok (strict h0) (one m) (Forall (newR_or h0 ps)).
Proof.
  intros Hp Hm. unfold one. eapply ok_bind; [exact Hm|]. intros q Hq. apply ok_ret. constructor; [|done].
  destruct Hq as [Hq|[-> Hq]]; [by left|]. right. by exists p.
Qed.

Ltac known_call := lazymatch goal with
  | |- ok _ (h_make _) _ => apply ok_h_make
  | |- ok _ (h_copy _) _ => apply ok_h_copy
  | |- ok _ (h_take _ _ _) _ => apply ok_h_take
  | |- ok _ (h_keep_label _ _ _) _ => apply ok_h_keep_label
  | |- ok _ (h_lag _ _ _) _ => apply ok_h_lag
  | |- ok _ (h_T _) _ => apply ok_h_T
  | |- ok _ (h_swapaxes _ _ _) _ => apply ok_h_swapaxes
  | |- ok _ (h_insertaxis _ _ _) _ => apply ok_h_insertaxis
  | |- ok _ (h_morph _ _ _) _ => apply ok_h_morph
  | |- ok _ (h_copy_write _ _) _ => apply ok_h_copy_write
  | |- ok _ (h_map _ _) _ => apply ok_h_map
  | |- ok _ (h_binary _ _ _) _ => apply ok_h_binary
  | |- ok _ (h_rsub _ _) _ => apply ok_h_rsub
  | |- ok _ (h_cum _ _ _) _ => apply ok_h_cum
  | |- ok _ (h_vacuum _ _) _ => apply ok_h_vacuum
  | |- ok _ (h_cut_missing _ _ _) _ => apply ok_h_cut_missing
  | |- ok _ (h_keep_x _ _ _ _) _ => apply ok_h_keep_x
  | |- ok _ (h_copy_assign _ _) _ => apply ok_h_copy_assign
  | |- ok _ (h_fresh1 _ _) _ => apply ok_h_fresh1
  | |- ok _ (h_new _) _ => apply ok_h_new
  | |- ok _ (h_maplabel _ _ _ true) _ => apply ok_h_maplabel
  | |- ok _ (h_flipaxis _ _ true) _ => apply ok_h_flipaxis
  | |- ok _ (h_binaryop _ _ _ _ _ None None) _ => apply ok_h_binaryop
  | |- ok _ (match ?op with _ => _ end) _ => destruct op; known_call
  end.
Ltac call_ok := cbn beta iota; lazymatch goal with
  | |- ok _ (mbind _ (lift (of_opt IndexError (_ !! _)))) _ => eapply ok_bind; [apply ok_arg|intros ? ?; call_ok]
  | |- ok _ (mbind _ (value _)) _ => eapply ok_bind; [apply ok_look|intros ? _; call_ok]
  | |- ok _ (one (h_morph_like _ _)) _ => eapply ok_one_or; [eassumption|apply ok_h_morph_like]
  | |- ok _ (one (h_sortaxis _ _ _)) _ => eapply ok_one_or; [eassumption|apply ok_h_sortaxis]
  | |- ok _ (one _) _ => apply ok_newR_or, ok_one; known_call
  | |- ok _ (h_map_out _ _) _ => apply ok_newR_or, ok_h_map_out
  | |- ok _ (h_reduce _ _ _) _ => apply ok_newR_or, ok_h_reduce
  | |- ok _ (h_prod _ _) _ => apply ok_newR_or, ok_h_prod
  | |- ok _ (h_compare _ _ _) _ => apply ok_newR_or, ok_h_compare
  | |- ok _ (h_align _ _ _ _) _ => apply ok_newR_or, ok_h_align
  | |- ok _ (h_getitem _ _) _ => apply ok_newR_or, ok_h_getitem_own; assumption
  end.

Lemma ok_hexec h0 ps c : in_place c = None -> may_write c = false -> may_share c = false ->
  ok (strict h0) (hexec ps c) (Forall (newR_or h0 ps)).
Proof.
  intros Hi Hw Hs. destruct c; try discriminate; cbn [hexec]; try (solve [call_ok]).
  - eapply ok_bind; [apply ok_arg|intros p Hp]. eapply ok_bind; [apply ok_arg|intros q Hq].
    eapply ok_one_or; [exact Hp|apply ok_h_morph_like].
  - eapply ok_bind; [apply ok_arg|intros p Hp]. eapply ok_one_or; [exact Hp|apply ok_h_sortaxis].
  - eapply ok_bind; [apply (ok_mapC _ _ _ (fun _ => True)); intros; apply ok_lift|intros qs _].
    apply ok_newR_or, ok_h_align_axis.
  - destruct missone, misstwo; try discriminate. call_ok.
  - eapply ok_bind; [apply (ok_mapC _ _ _ (fun _ => True)); intros; apply ok_lift|intros qs _].
    eapply ok_bind; [apply (ok_mapC _ _ _ (fun _ => True)); intros; apply ok_look|intros ys _].
    apply ok_newR_or, ok_one, ok_h_make.
  - eapply ok_bind; [apply ok_lift|intros [z|v] _]; apply ok_newR_or; [apply ok_one, ok_h_new|].
    apply ok_ret. by repeat constructor.
  - eapply ok_bind; [apply ok_arg|intros p Hp].
    eapply ok_bind; [apply ok_h_take|intros q1 Hq1]. eapply ok_bind; [apply ok_h_take|intros q2 Hq2].
    apply ok_ret. by repeat constructor.
Qed.

(** The calls whose result can be a view. *)
Lemma hexec_viewed h0 ps c h' r : in_place c = None -> may_write c = false -> may_share c = true ->
  hexec ps c h0 = (h', r) ->
  h' = h0 /\ (exists e, r = Err e) \/
  exists p ob is, p ∈ (omap (ps !!.) (args c) : list nat) /\ h_objs h0 !! p = Some ob /\ h_outers h0 !! o_label ob = Some is /\
    Inv' (viewed h0 (o_x ob) is) h' /\ forall rs, r = Ok rs -> Forall (viewR h0 p ob) rs.
Proof.
  intros Hi Hw Hs.
  assert (forall i (f : nat -> cmd (list hval)), args c = [i] ->
    (forall p, read_larry h0 p = None -> f p h0 = (h0, Err RuntimeError)) ->
    (forall p ob is, h_objs h0 !! p = Some ob -> h_outers h0 !! o_label ob = Some is ->
      ok (viewed h0 (o_x ob) is) (f p) (Forall (viewR h0 p ob))) ->
    (p ← lift (of_opt IndexError (ps !! i)); f p) h0 = (h', r) ->
    h' = h0 /\ (exists e, r = Err e) \/
    exists p ob is, p ∈ (omap (ps !!.) (args c) : list nat) /\ h_objs h0 !! p = Some ob /\ h_outers h0 !! o_label ob = Some is /\
      Inv' (viewed h0 (o_x ob) is) h' /\ forall rs, r = Ok rs -> Forall (viewR h0 p ob) rs) as Hgen.
  { intros i f Hargs Hk Hf. rewrite Hargs. unfold mbind, cmd_bind, lift. simpl.
    destruct (ps !! i) as [p|] eqn:Hp; simpl; [|intros [= <- <-]; left; eauto].
    destruct (h_objs h0 !! p) as [ob|] eqn:Hob.
    - destruct (h_outers h0 !! o_label ob) as [is|] eqn:His.
      + intros He. right. exists p, ob, is. split; [by left|]. split; [done|]. split; [done|].
        destruct (Hf p ob is Hob His h0) as [Hinv Hr].
        * constructor; try done; [intros o js Ho Hlk|intros q ob' Hq Hlk]; apply lookup_lt_Some in Hlk; simpl in *; lia.
        * rewrite He in Hinv, Hr. by split.
      + intros He. left. rewrite Hk in He; [injection He as <- <-; eauto|].
        unfold read_larry, read_label. rewrite Hob. simpl. rewrite His. by destruct (read_arr _ _).
    - intros He. left. rewrite Hk in He; [injection He as <- <-; eauto|]. unfold read_larry. by rewrite Hob. }
  destruct c; try discriminate; cbn [hexec]; cbn beta iota; apply Hgen; try done;
    try (intros p Hp; cbv beta delta [h_pull h_squeeze h_getitem h_lix_get one value look mbind cmd_bind]; by rewrite Hp).
  - intros. by apply ok_h_pull.
  - intros. apply ok_one_V. by apply ok_h_squeeze.
  - intros. by apply ok_h_getitem.
  - intros. by apply ok_h_lix_get.
Qed.

(** * Consequences *)

Lemma inv_refl s : Inv' s (s_h0 s).
Proof.
  constructor; try done; [intros o js Ho Hlk|intros q ob' Hq Hlk]; apply lookup_lt_Some in Hlk; simpl in *; lia.
Qed.
Lemma ext_unchanged h h' : ext h h' -> unchanged h h'.
Proof.
  intros (Hb & Hl & Ho & Hp) x c. destruct x as [b|b i|i|o|p]; simpl.
  - rewrite !fmap_Some. intros (d & Hd & ->). exists d. split; [by eapply prefix_lookup_old|done].
  - intros Hc. apply bind_Some in Hc as (d & Hd & Hc). apply bind_Some. exists d.
    split; [by eapply prefix_lookup_old|done].
  - rewrite !fmap_Some. intros (d & Hd & ->). exists d. split; [by eapply prefix_lookup_old|done].
  - rewrite !fmap_Some. intros (d & Hd & ->). exists d. split; [by eapply prefix_lookup_old|done].
  - rewrite !fmap_Some. intros (d & Hd & ->). exists d. split; [by eapply prefix_lookup_old|done].
Qed.
Lemma newA_own h0 a x : newA h0 a -> arr_part a x -> content_of h0 x = None.
Proof.
  unfold newA. intros Ha [->|(i & _ & ->)]; simpl; by rewrite lookup_ge_None_2.
Qed.
Lemma strict_own h0 h r : Inv' (strict h0) h -> newR h0 r -> own h0 h r.
Proof.
  intros Hinv Hr x. destruct r as [q|a|v]; simpl in *; [|by apply newA_own|done].
  intros (ob & Hob & Hx). destruct (inv_new_obj _ _ _ _ Hinv q ob Hr Hob) as [Ha Ho]. simpl in *.
  destruct Hx as [-> |[-> |[(is & i & His & Hi & ->)|Hx]]]; simpl.
  - by rewrite lookup_ge_None_2.
  - by rewrite lookup_ge_None_2.
  - pose proof (inv_new_outer _ _ _ _ Hinv _ is Ho His) as Hnew. simpl in Hnew.
    rewrite Forall_forall in Hnew. apply Hnew in Hi. unfold newL in Hi. by rewrite lookup_ge_None_2.
  - by eapply newA_own.
Qed.
Lemma viewA_parts h0 p ob a x : h_objs h0 !! p = Some ob -> viewA h0 (o_x ob) a -> arr_part a x ->
  content_of h0 x = None \/ part_of h0 p x.
Proof.
  intros Hob [Ha|[Hb Hd]] Hx; [left; by eapply newA_own|]. right. exists ob. split; [done|].
  do 3 right. destruct Hx as [-> |(i & Hi & ->)]; [left; by rewrite Hb|]. right. exists i.
  rewrite Hb. split; [by apply Hd|done].
Qed.
Lemma viewed_parts h0 p ob is h r x : h_objs h0 !! p = Some ob -> h_outers h0 !! o_label ob = Some is ->
  Inv' (viewed h0 (o_x ob) is) h -> viewR h0 p ob r -> part_of_result h r x ->
  content_of h0 x = None \/ part_of h0 p x.
Proof.
  intros Hob His Hinv Hr Hx. destruct r as [q|a|v]; simpl in *; [|by eapply viewA_parts|done].
  destruct Hr as [Hq| ->].
  - destruct Hx as (ob' & Hob' & Hx). destruct (inv_new_obj _ _ _ _ Hinv q ob' Hq Hob') as [Ha Ho]. simpl in *.
    destruct Hx as [-> |[-> |[(js & i & Hjs & Hi & ->)|Hx]]]; simpl.
    + left. by rewrite lookup_ge_None_2.
    + left. by rewrite lookup_ge_None_2.
    + pose proof (inv_new_outer _ _ _ _ Hinv _ js Ho Hjs) as Hnew. simpl in Hnew.
      rewrite Forall_forall in Hnew. apply Hnew in Hi as [Hi|Hi].
      * left. unfold newL in Hi. by rewrite lookup_ge_None_2.
      * right. exists ob. split; [done|]. right. right. left. exists is, i. done.
    + by eapply viewA_parts.
  - right. destruct Hx as (ob' & Hob' & Hx).
    rewrite (prefix_lookup_old _ _ _ _ (inv_objs _ _ _ _ Hinv) Hob) in Hob'. injection Hob' as <-.
    exists ob. split; [done|]. destruct Hx as [-> |[-> |[(js & i & Hjs & Hi & ->)|Hx]]]; [by left|by right; left| |by do 3 right].
    rewrite (prefix_lookup_old _ _ _ _ (inv_outers _ _ _ _ Hinv) His) in Hjs. injection Hjs as <-.
    right. right. left. exists is, i. done.
Qed.

(** Larrys that are well formed in memory. *)
Definition all_valid (h : heap) (ps : list nat) : Prop :=
  Forall (fun p => exists y, read_larry h p = Some y /\ valid y) ps.

Lemma hexec_ext h ps c h' r : in_place c = None -> may_write c = false -> hexec ps c h = (h', r) -> ext h h'.
Proof.
  intros Hi Hw He. destruct (may_share c) eqn:Hs.
  - destruct (hexec_viewed h ps c h' r Hi Hw Hs He) as [[-> _]|(p & ob & is & _ & _ & _ & Hinv & _)]; [done|].
    exact (inv_ext _ _ Hinv).
  - destruct (ok_hexec h ps c Hi Hw Hs h (inv_refl (strict h))) as [Hinv _]. rewrite He in Hinv.
    exact (inv_ext _ _ Hinv).
Qed.
Lemma hexec_unchanged h ps c h' r : in_place c = None -> may_write c = false -> hexec ps c h = (h', r) -> unchanged h h'.
Proof. intros Hi Hw He. apply ext_unchanged. by eapply hexec_ext. Qed.
Lemma hexec_read h ps c h' r p y : in_place c = None -> may_write c = false -> hexec ps c h = (h', r) ->
  read_larry h p = Some y -> read_larry h' p = Some y.
Proof. intros Hi Hw He. apply read_larry_ext. by eapply hexec_ext. Qed.
Lemma hexec_own h ps c h' rs : in_place c = None -> may_write c = false -> may_share c = false -> all_valid h ps ->
  hexec ps c h = (h', Ok rs) -> Forall (own h h') rs.
Proof.
  intros Hi Hw Hs Hps He. destruct (ok_hexec h ps c Hi Hw Hs h (inv_refl (strict h))) as [Hinv Hr].
  rewrite He in Hinv, Hr. specialize (Hr rs eq_refl). eapply Forall_impl; [exact Hr|]. intros r [Hnew|(p & -> & Hp & Hno)].
  - by apply strict_own.
  - exfalso. unfold all_valid in Hps. rewrite Forall_forall in Hps. destruct (Hps p Hp) as (y & Hy & Hv).
    apply Hno in Hy. destruct Hv as (_ & Hne & Hlen & _). unfold lndim in Hy. rewrite <-Hlen, fmap_length in Hy.
    by destruct (llabel y).
Qed.
Lemma hexec_shared h ps c h' rs r x : in_place c = None -> may_write c = false -> hexec ps c h = (h', Ok rs) ->
  may_share c = true -> r ∈ rs -> part_of_result h' r x ->
  content_of h x = None \/ exists i p, i ∈ args c /\ ps !! i = Some p /\ part_of h p x.
Proof.
  intros Hi Hw He Hs Hr Hx.
  destruct (hexec_viewed h ps c h' _ Hi Hw Hs He) as [[_ (e & [=])]|(p & ob & is & Hp & Hob & His & Hinv & Hrs)].
  specialize (Hrs rs eq_refl). rewrite Forall_forall in Hrs.
  destruct (viewed_parts h p ob is h' r x Hob His Hinv (Hrs r Hr) Hx) as [Hn|Hpart]; [by left|].
  right. rewrite elem_of_list_omap in Hp. destruct Hp as (i & Hi' & Hp). by exists i, p.
Qed.

(** * Calls that work in place *)

Lemma put_at_ne ps vs d i : i ∉ ps -> put_at ps vs d !! i = d !! i.
Proof.
  unfold put_at. revert vs d. induction ps as [|p ps IH]; intros [|v vs] d Hi; try done.
  simpl. rewrite IH; [|intros H; apply Hi; by right]. apply list_lookup_insert_ne. intros ->. apply Hi. by left.
Qed.
Lemma write_frame a z h h' r : write a z h = (h', r) ->
  h_lists h' = h_lists h /\ h_outers h' = h_outers h /\ h_objs h' = h_objs h /\
  length (h_bufs h') = length (h_bufs h) /\
  (forall b, content_of h' (PBuf b) = content_of h (PBuf b)) /\
  (forall b i, ~ (b = a_buf a /\ i ∈ data (a_pos a)) -> content_of h' (PCell b i) = content_of h (PCell b i)).
Proof.
  unfold write. destruct (h_bufs h !! a_buf a) as [[dt d]|] eqn:Hb; [|intros [= <- <-]; done].
  case_decide; [|intros [= <- <-]; done]. intros [= <- <-]. simpl. repeat (split; [done|]).
  split; [by rewrite insert_length|].
  pose proof (lookup_lt_Some _ _ _ Hb) as Hlt.
  split.
  - intros b. destruct (decide (a_buf a = b)) as [<-|Hne].
    + rewrite list_lookup_insert by done. by rewrite Hb.
    + by rewrite list_lookup_insert_ne.
  - intros b i Hbi. destruct (decide (a_buf a = b)) as [<-|Hne].
    + rewrite list_lookup_insert by done. rewrite Hb. simpl. rewrite put_at_ne; [done|].
      intros Hin. by apply Hbi.
    + by rewrite list_lookup_insert_ne.
Qed.
(** Everything outside [X] is the same. *)
Definition only (X : part -> Prop) (h h' : heap) : Prop :=
  forall x, ~ X x -> content_of h' x = content_of h x.
Lemma only_refl X h : only X h h.
Proof. done. Qed.
Lemma write_only a z h h' r : write a z h = (h', r) -> only (arr_part a) h h'.
Proof.
  intros Hw. destruct (write_frame _ _ _ _ _ Hw) as (Hl & Ho & Hp & _ & Hb & Hc).
  intros [b|b i|i|o|p] Hx; [apply Hb| | | |]; simpl; [|by rewrite Hl|by rewrite Ho|by rewrite Hp].
  apply Hc. intros [-> Hi]. apply Hx. right. by exists i.
Qed.
Lemma h_inplace_only f p h h' r : h_inplace f p h = (h', r) ->
  only (part_of h p) h h' /\ h_objs h' = h_objs h /\ h_outers h' = h_outers h.
Proof.
  unfold h_inplace, mbind, cmd_bind, value, look, lift, ld_x, ret. simpl.
  destruct (read_larry h p) as [y|] eqn:Hy; simpl; [|by intros [= <- <-]].
  destruct (f y) as [z|e]; [|by intros [= <- <-]].
  unfold look. destruct (h_objs h !! p) as [ob|] eqn:Hob; simpl; [|by intros [= <- <-]].
  destruct (write (o_x ob) (lx z) h) as [h1 r1] eqn:Hw.
  destruct (write_frame _ _ _ _ _ Hw) as (_ & Ho & Hp & _).
  pose proof (write_only _ _ _ _ _ Hw) as Honly.
  assert (only (part_of h p) h h1) as H1.
  { intros x Hx. apply Honly. intros Ha. apply Hx. exists ob. split; [done|]. by do 3 right. }
  destruct r1; intros [= <- <-]; done.
Qed.
Lemma h_shufflelabel_at_only d p ax h h' r : h_shufflelabel_at d p ax h = (h', r) ->
  only (part_of h p) h h' /\ h_objs h' = h_objs h /\ h_outers h' = h_outers h.
Proof.
  unfold h_shufflelabel_at, mbind, cmd_bind, get_outer, get_list, look, lift, ld_label. simpl.
  destruct (h_objs h !! p) as [ob|] eqn:Hob; simpl; [|by intros [= <- <-]].
  destruct (h_outers h !! o_label ob) as [is|] eqn:His; simpl; [|by intros [= <- <-]].
  destruct (is !! ax) as [i|] eqn:Hi; simpl; [|by intros [= <- <-]].
  destruct (h_lists h !! i) as [l|] eqn:Hl; simpl; [|by intros [= <- <-]].
  destruct (np_shuffle_list (d ax) l) as [l'|e]; simpl; [|by intros [= <- <-]].
  unfold set_list. rewrite Hl. intros [= <- <-]. split; [|done].
  intros [b|b j|j|o|q] Hx; try done. simpl. rewrite list_lookup_insert_ne; [done|].
  intros <-. apply Hx. exists ob. split; [done|]. right. right. left. exists is, i.
  split; [done|]. split; [by eapply elem_of_list_lookup_2|done].
Qed.
Lemma part_of_same h h' p x : h_objs h' = h_objs h -> h_outers h' = h_outers h -> part_of h' p x -> part_of h p x.
Proof. intros Hp Ho. unfold part_of. by rewrite Hp, Ho. Qed.
Lemma h_shufflelabel_only d p axis h h' r : h_shufflelabel d p axis h = (h', r) ->
  only (part_of h p) h h' /\ h_objs h' = h_objs h /\ h_outers h' = h_outers h.
Proof.
  unfold h_shufflelabel, mbind, cmd_bind, value, look, lift, ret. simpl.
  destruct (read_larry h p) as [y|] eqn:Hy; simpl; [|by intros [= <- <-]].
  destruct (match axis with None => _ | Some _ => _ end) as [axes|e]; simpl; [|by intros [= <- <-]].
  assert (forall l u h1 r1, foldC (fun _ ax => h_shufflelabel_at d p ax) u l h = (h1, r1) ->
    only (part_of h p) h h1 /\ h_objs h1 = h_objs h /\ h_outers h1 = h_outers h) as Hfold.
  { clear. intros l. induction l as [|ax l IH] using rev_ind; intros u h1 r1.
    - by intros [= <- <-].
    - assert (forall X (f : unit -> X -> cmd unit) l x u h, foldC f u (l ++ [x]) h =
        match foldC f u l h with (h', Ok a) => f a x h' | (h', Err e) => (h', Err e) end) as Happ.
      { clear. intros X f l x. induction l as [|y l IH]; intros u h; simpl.
        - unfold mbind, cmd_bind, ret. by destruct (f u x h) as [h' [[]|]].
        - unfold mbind, cmd_bind. destruct (f u y h) as [h' [a|e]]; [apply IH|done]. }
      rewrite Happ. destruct (foldC _ u l h) as [h2 r2] eqn:E. destruct (IH _ _ _ E) as (Ho1 & Hp1 & Hu1).
      destruct r2 as [a|e]; [|by intros [= <- <-]].
      intros Hs. destruct (h_shufflelabel_at_only _ _ _ _ _ _ Hs) as (Ho2 & Hp2 & Hu2).
      split; [|split; congruence]. intros x Hx. rewrite Ho2; [by apply Ho1|].
      intros Hx2. apply Hx. by eapply part_of_same. }
  destruct (foldC _ _ axes h) as [h1 r1] eqn:E. destruct (Hfold _ _ _ _ E) as (? & ? & ?).
  destruct r1; by intros [= <- <-].
Qed.
Lemma hexec_in_place h ps c i h' r : in_place c = Some i -> hexec ps c h = (h', r) ->
  (ps !! i = None /\ h' = h) \/
  exists p, ps !! i = Some p /\ only (part_of h p) h h' /\ h_objs h' = h_objs h /\ h_outers h' = h_outers h.
Proof.
  intros Hi He.
  assert (forall (f : nat -> cmd (list hval)), (p ← lift (of_opt IndexError (ps !! i)); f p) h = (h', r) ->
    (forall p h' r, f p h = (h', r) -> only (part_of h p) h h' /\ h_objs h' = h_objs h /\ h_outers h' = h_outers h) ->
    (ps !! i = None /\ h' = h) \/
    exists p, ps !! i = Some p /\ only (part_of h p) h h' /\ h_objs h' = h_objs h /\ h_outers h' = h_outers h) as Hgen.
  { intros f Hf Hall. unfold mbind, cmd_bind, lift in Hf. destruct (ps !! i) as [p|] eqn:Hp; simpl in Hf.
    - right. exists p. split; [done|]. by eapply Hall.
    - injection Hf as <- <-. by left. }
  destruct c; try discriminate; simpl in Hi; injection Hi as ->; cbn [hexec] in He; cbn beta iota in He;
    (eapply Hgen; [exact He|]); intros p h1 r1; try apply h_inplace_only; try apply h_shufflelabel_only.
  (* a mask *)
  unfold mbind, cmd_bind, lift at 1. destruct (ps !! j) as [q|]; simpl; [|by intros [= <- <-]].
  destruct (read_larry h q) as [m|]; simpl; [|by intros [= <- <-]].
  apply h_inplace_only.
Qed.

(** * Independence *)

Lemma read_larry_same h h' p y : (forall x, part_of h p x -> content_of h' x = content_of h x) ->
  read_larry h p = Some y -> read_larry h' p = Some y.
Proof.
  intros Hsame Hy. unfold read_larry in *.
  destruct (h_objs h !! p) as [ob|] eqn:Hob; [|done]. simpl in Hy.
  assert (h_objs h' !! p = Some ob) as ->.
  { assert (part_of h p (PObj p)) as Hp by (exists ob; eauto). apply Hsame in Hp. simpl in Hp. rewrite Hob in Hp.
    simpl in Hp. apply fmap_Some in Hp as (ob' & -> & [= ->]). done. }
  simpl. destruct (read_arr h (o_x ob)) as [x|] eqn:Hx; [|done]. simpl in Hy.
  assert (read_arr h' (o_x ob) = Some x) as ->.
  { unfold read_arr in *. destruct (h_bufs h !! a_buf (o_x ob)) as [[dt d]|] eqn:Hb; [|done]. simpl in Hx.
    assert (part_of h p (PBuf (a_buf (o_x ob)))) as Hp by (exists ob; split; [done|]; do 3 right; by left).
    apply Hsame in Hp. simpl in Hp. rewrite Hb in Hp. simpl in Hp. apply fmap_Some in Hp as ([dt' d'] & Hb' & [= ->]).
    rewrite Hb'. simpl in *. destruct (mapM (d !!.) _) as [vs|] eqn:Hvs; [|done]. simpl in Hx. injection Hx as <-.
    assert (mapM (d' !!.) (data (a_pos (o_x ob))) = Some vs) as ->; [|done].
    rewrite mapM_Some in *. apply Forall2_same_length_lookup. split; [by eapply Forall2_length|].
    intros k i v Hi Hv. pose proof (Forall2_lookup_lr _ _ _ _ _ _ Hvs Hi Hv) as Hd. simpl in Hd.
    assert (part_of h p (PCell (a_buf (o_x ob)) i)) as Hp.
    { exists ob. split; [done|]. do 3 right. right. exists i. split; [by eapply elem_of_list_lookup_2|done]. }
    apply Hsame in Hp. simpl in Hp. rewrite Hb, Hb' in Hp. simpl in Hp. rewrite Hd in Hp. simpl in Hp.
    apply fmap_Some in Hp as (v' & -> & [= ->]). done. }
  simpl. destruct (read_label h (o_label ob)) as [l|] eqn:Hl; [|done]. simpl in Hy.
  assert (read_label h' (o_label ob) = Some l) as ->; [|done].
  unfold read_label in *. destruct (h_outers h !! o_label ob) as [is|] eqn:His; [|done]. simpl in Hl.
  assert (h_outers h' !! o_label ob = Some is) as ->.
  { assert (part_of h p (POuter (o_label ob))) as Hp by (exists ob; eauto). apply Hsame in Hp. simpl in Hp. rewrite His in Hp.
    simpl in Hp. apply fmap_Some in Hp as (ob' & -> & [= ->]). done. }
  simpl. rewrite mapM_Some in *. apply Forall2_same_length_lookup. split; [by eapply Forall2_length|].
  intros k i v Hi Hv. pose proof (Forall2_lookup_lr _ _ _ _ _ _ Hl Hi Hv) as Hd. simpl in Hd.
  assert (part_of h p (PList i)) as Hp.
  { exists ob. split; [done|]. right. right. left. exists is, i. split; [done|]. split; [by eapply elem_of_list_lookup_2|done]. }
  apply Hsame in Hp. simpl in Hp. rewrite Hd in Hp. simpl in Hp. apply fmap_Some in Hp as (v' & -> & [= ->]). done.
Qed.
Lemma read_parts h p y x : read_larry h p = Some y -> part_of h p x -> is_Some (content_of h x).
Proof.
  unfold read_larry. intros Hy (ob & Hob & Hx). rewrite Hob in Hy. simpl in Hy.
  destruct (read_arr h (o_x ob)) as [a|] eqn:Ha; [|done].
  destruct (read_label h (o_label ob)) as [l|] eqn:Hl; [|done].
  unfold read_arr in Ha. destruct (h_bufs h !! a_buf (o_x ob)) as [[dt d]|] eqn:Hb; [|done]. simpl in Ha.
  unfold read_label in Hl. destruct (h_outers h !! o_label ob) as [is|] eqn:His; [|done]. simpl in Hl.
  destruct Hx as [-> |[-> |[(js & i & Hjs & Hi & ->)|[-> |(i & Hi & ->)]]]]; simpl.
  - by rewrite Hob.
  - by rewrite His.
  - injection Hjs as <-. rewrite mapM_Some in Hl. apply elem_of_list_lookup in Hi as [k Hi].
    destruct (Forall2_lookup_l _ _ _ _ _ Hl Hi) as (v & _ & Hv). simpl in Hv. by rewrite Hv.
  - by rewrite Hb.
  - rewrite Hb. simpl. destruct (mapM _ _) as [vs|] eqn:Hvs; [|done]. rewrite mapM_Some in Hvs.
    apply elem_of_list_lookup in Hi as [k Hi].
    destruct (Forall2_lookup_l _ _ _ _ _ Hvs Hi) as (v & _ & Hv). simpl in Hv. by rewrite Hv.
Qed.
Lemma part_of_ext h h' p y x : ext h h' -> read_larry h p = Some y -> part_of h' p x -> part_of h p x.
Proof.
  intros (_ & _ & Ho & Hp) Hy (ob' & Hob' & Hx). unfold read_larry in Hy.
  destruct (h_objs h !! p) as [ob|] eqn:Hob; [|done]. simpl in Hy.
  rewrite (prefix_lookup_old _ _ _ _ Hp Hob) in Hob'. injection Hob' as <-.
  exists ob. split; [done|]. destruct Hx as [-> |[-> |[(js & i & Hjs & Hi & ->)|Hx]]]; [by left|by right; left| |by do 3 right].
  right. right. left. destruct (read_arr h (o_x ob)) as [a|]; [|done]. simpl in Hy.
  unfold read_label in Hy. destruct (h_outers h !! o_label ob) as [is|] eqn:His; [|done].
  rewrite (prefix_lookup_old _ _ _ _ Ho His) in Hjs. injection Hjs as <-. by exists is, i.
Qed.
(** Working in place on a result of one's own changes nothing that was there;
    working in place on a larry that was there does not change such a result. *)
Lemma own_keeps_old h h' q ps c i h2 r : ext h h' -> own h h' (HLarry q) -> in_place c = Some i -> ps !! i = Some q ->
  hexec ps c h' = (h2, r) -> unchanged h h2.
Proof.
  intros Hext Hown Hc Hi He x ct Hx.
  destruct (hexec_in_place _ _ _ _ _ _ Hc He) as [[_ ->]|(q' & Hq & Honly & _)].
  - by eapply ext_unchanged.
  - rewrite Hi in Hq. injection Hq as <-. rewrite Honly; [by eapply ext_unchanged|].
    intros Hp. apply Hown in Hp. congruence.
Qed.
Lemma old_keeps_own h h' p y q z ps c i h2 r : ext h h' -> own h h' (HLarry q) -> read_larry h p = Some y ->
  read_larry h' q = Some z -> in_place c = Some i -> ps !! i = Some p ->
  hexec ps c h' = (h2, r) -> read_larry h2 q = Some z.
Proof.
  intros Hext Hown Hy Hz Hc Hi He.
  destruct (hexec_in_place _ _ _ _ _ _ Hc He) as [[_ ->]|(q' & Hq & Honly & _)]; [done|].
  rewrite Hi in Hq. injection Hq as <-. eapply read_larry_same; [|exact Hz].
  intros x Hx. apply Honly. intros Hp. apply Hown in Hx.
  destruct (read_parts h p y x Hy) as [ct Hct]; [by eapply part_of_ext|]. congruence.
Qed.

(** * merge *)

Lemma ok_foldC_seq s {T} (f : T -> nat -> cmd T) (Q : nat -> T -> Prop) n k a : Q k a ->
  (forall i b, k <= i < k + n -> Q i b -> ok s (f b i) (Q (S i))) -> ok s (foldC f a (seq k n)) (Q (k + n)).
Proof.
  revert k a. induction n as [|n IH]; intros k a Ha Hf; simpl.
  - rewrite Nat.add_0_r. by apply ok_ret.
  - eapply ok_bind; [apply Hf; [lia|done]|]. intros b Hb.
    rewrite <-Nat.add_succ_comm. apply IH; [done|]. intros i c Hi. apply Hf. lia.
Qed.
Lemma ok_h_merge_diff h0 p1 p2 y1 y2 update : read_larry h0 p1 = Some y1 -> read_larry h0 p2 = Some y2 ->
  length (llabel y1) = lndim y1 -> length (llabel y2) = lndim y2 -> llabel y1 <> llabel y2 ->
  ok (strict h0) (h_merge p1 p2 update) (newP h0).
Proof.
  intros H1 H2 Hn1 Hn2 Hne. unfold h_merge.
  eapply ok_bind; [apply ok_value|intros z1 Hz1]. eapply ok_bind; [apply ok_value|intros z2 Hz2].
  pose proof (Hz1 _ H1) as ->. pose proof (Hz2 _ H2) as ->.
  case_decide as Hnd; [apply ok_err|].
  eapply (ok_bind _ _ _ (fun st => newP h0 st.1 /\ newP h0 st.2)).
  - eapply ok_weak; [apply (ok_foldC_seq _ _ (fun i st => newP h0 st.1 /\ newP h0 st.2 \/
      st = (p1, p2) /\ forall ax, ax < i -> llabel y1 !! ax = llabel y2 !! ax))|].
    + right. split; [done|]. intros ax Hax. lia.
    + intros i st Hi Hst. unfold h_merge_step.
      eapply ok_bind; [apply ok_value|intros w1 Hw1]. eapply ok_bind; [apply ok_value|intros w2 Hw2].
      eapply ok_bind; [apply ok_lift_eq|intros l1 Hl1]. eapply ok_bind; [apply ok_lift_eq|intros l2 Hl2].
      cbn beta in *. case_decide as Hl.
      * apply ok_ret. destruct Hst as [Hst|[-> Hst]]; [by left|]. right. split; [done|]. intros ax Hax.
        destruct (decide (ax = i)) as [->|Hai]; [|apply Hst; lia]. simpl in *. subst l2.
        rewrite (Hw1 _ H1) in Hl1. rewrite (Hw2 _ H2) in Hl2. unfold axis_label in *.
        rewrite of_opt_ok in Hl1. rewrite of_opt_ok in Hl2. congruence.
      * eapply ok_bind; [apply ok_lift|intros ml _]. eapply ok_bind; [apply ok_h_morph|intros q1 Hq1].
        eapply ok_bind; [apply ok_h_morph|intros q2 Hq2]. apply ok_ret. by left.
    + intros st [Hst|[_ Hall]]; [done|]. exfalso. apply Hne. apply list_eq. intros ax.
      destruct (decide (ax < lndim y1)) as [Hlt|Hge]; [by apply Hall|].
      rewrite !lookup_ge_None_2; [done|lia..].
  - intros st [Hs1 Hs2]. eapply ok_bind; [apply ok_look|intros w1 _]. eapply ok_bind; [apply ok_look|intros w2 _].
    cbn zeta. case_decide; [|case_decide; [case_match|]; apply ok_err].
    case_match; [apply ok_err|]. case_match; [|by apply ok_ret].
    eapply ok_bind; [apply ok_lift|intros x _]. eapply ok_bind; [by apply ok_ld_x|intros a Ha].
    eapply ok_bind; [by apply ok_write|intros _ _]. by apply ok_ret.
Qed.
Lemma h_merge_same p1 p2 y1 y2 update h h' r : read_larry h p1 = Some y1 -> read_larry h p2 = Some y2 ->
  llabel y1 = llabel y2 -> h_merge p1 p2 update h = (h', r) ->
  (forall q, r = Ok q -> q = p1) /\ only (part_of h p1) h h' /\ h_objs h' = h_objs h /\ h_outers h' = h_outers h.
Proof.
  intros H1 H2 Hl. unfold h_merge. unfold mbind at 1 2, cmd_bind at 1 2, value at 1 2, look at 1 2. rewrite H1. simpl of_opt.
  cbn iota beta. rewrite H2. simpl of_opt. cbn iota beta.
  case_decide; [by intros [= <- <-]|].
  assert (forall l, foldC h_merge_step (p1, p2) l h = (h, Ok (p1, p2)) \/ exists e, foldC h_merge_step (p1, p2) l h = (h, Err e)) as Hfold.
  { induction l as [|ax l IH]; [by left|]. simpl. unfold mbind, cmd_bind. unfold h_merge_step at 1 3.
    unfold mbind, cmd_bind, value, look, lift, ret. cbn [fst snd]. rewrite H1, H2. simpl of_opt. cbn iota beta.
    destruct (axis_label y1 ax) as [l1|e] eqn:E1; cbn iota beta; [|right; eauto].
    unfold axis_label in *. rewrite <-Hl. rewrite E1. cbn iota beta. rewrite decide_True by done. apply IH. }
  unfold mbind at 1, cmd_bind at 1. destruct (Hfold (seq 0 (lndim y1))) as [->|[e ->]]; [|by intros [= <- <-]].
  unfold mbind at 1 2, cmd_bind at 1 2, value, look. cbn [fst snd]. rewrite H1, H2. simpl of_opt. cbn iota beta zeta.
  case_decide; cycle 1.
  { case_decide; unfold lift; [destruct (negb _ && _)|]; intros [= <- <-]; done. }
  destruct (negb update && _); [by intros [= <- <-]|].
  destruct (any_true _); [|unfold ret; by intros [= <- <-]; split; [intros q [= <-]|]].
  unfold mbind, cmd_bind, lift, ld_x, look, ret. destruct (putmask_arr _ _ _) as [x|e]; [|by intros [= <- <-]].
  destruct (h_objs h !! p1) as [ob|] eqn:Hob; simpl; [|by intros [= <- <-]].
  destruct (write (o_x ob) x h) as [h1 r1] eqn:Hw.
  destruct (write_frame _ _ _ _ _ Hw) as (_ & Ho & Hp & _).
  pose proof (write_only _ _ _ _ _ Hw) as Honly.
  assert (only (part_of h p1) h h1) as Hon.
  { intros z Hx. apply Honly. intros Ha. apply Hx. exists ob. split; [done|]. by do 3 right. }
  destruct r1; intros [= <- <-]; (split; [by intros q [= <-] || done|done]).
Qed.

(** * binaryop with missing elements replaced *)

Lemma write_exists a z h h' r x : write a z h = (h', r) -> is_Some (content_of h x) <-> is_Some (content_of h' x).
Proof.
  unfold write. destruct (h_bufs h !! a_buf a) as [[dt d]|] eqn:Hb; [|by intros [= <- <-]].
  case_decide; [|by intros [= <- <-]]. intros [= <- <-].
  pose proof (lookup_lt_Some _ _ _ Hb) as Hlt.
  assert (forall ps vs d, length (put_at ps vs d) = length d) as Hlen.
  { clear. unfold put_at. induction ps as [|p ps IH]; intros [|v vs] d; try done. simpl. rewrite IH. apply insert_length. }
  destruct x as [b|b i|i|o|p]; simpl; try done; destruct (decide (a_buf a = b)) as [<-|Hne];
    rewrite ?list_lookup_insert, ?list_lookup_insert_ne, ?Hb by done; simpl; try done.
  rewrite !fmap_is_Some, !lookup_lt_is_Some. by rewrite Hlen.
Qed.
(** Memory that has the parts of [h], the same outside [X]. *)
Definition keeps (X : part -> Prop) (h h' : heap) : Prop :=
  forall x, is_Some (content_of h x) -> is_Some (content_of h' x) /\ (~ X x -> content_of h' x = content_of h x).
Lemma keeps_refl X h : keeps X h h.
Proof. by intros x Hx. Qed.
Lemma keeps_trans X h1 h2 h3 : keeps X h1 h2 -> keeps X h2 h3 -> keeps X h1 h3.
Proof.
  intros H1 H2 x Hx. destruct (H1 x Hx) as [Hx2 He1]. destruct (H2 x Hx2) as [Hx3 He2]. split; [done|].
  intros Hn. rewrite He2 by done. by apply He1.
Qed.
Lemma ext_keeps X h h' : ext h h' -> keeps X h h'.
Proof.
  intros He x [c Hc]. pose proof (ext_unchanged _ _ He x c Hc) as Hc'. rewrite Hc'. split; [done|]. by rewrite Hc.
Qed.
Lemma write_keeps (X : part -> Prop) h0 a z h h' r : keeps X h0 h -> write a z h = (h', r) ->
  (forall x, arr_part a x -> X x \/ content_of h0 x = None) -> keeps X h0 h'.
Proof.
  intros Hk Hw Ha x Hx. destruct (Hk x Hx) as [Hx2 He]. split; [by rewrite <-(write_exists _ _ _ _ _ _ Hw)|].
  intros Hn. rewrite (write_only _ _ _ _ _ Hw); [by apply He|].
  intros Hp. destruct (Ha x Hp) as [HX|Hno]; [done|]. rewrite Hno in Hx. by destruct Hx.
Qed.

(** The arrays [binaryop] works with are new or those of its arguments. *)
Definition al_from (h0 : heap) (b1 b2 : harr) (s : hal) : Prop :=
  (newA h0 (hal_x1 s) \/ hal_x1 s = b1) /\ (newA h0 (hal_x2 s) \/ hal_x2 s = b2).
Lemma ok_h_align_raw_from h0 p1 p2 ob1 ob2 j cast : h_objs h0 !! p1 = Some ob1 -> h_objs h0 !! p2 = Some ob2 ->
  ok (strict h0) (h_align_raw p1 p2 j cast) (al_from h0 (o_x ob1) (o_x ob2)).
Proof.
  assert (forall p ob, h_objs h0 !! p = Some ob -> ok (strict h0) (ld_x p) (fun a => a = o_x ob)) as Hld.
  { intros p ob Hob h Hh. split; [done|]. intros a Ha. unfold ld_x, look in Ha. simpl in Ha.
    rewrite (prefix_lookup_old _ _ _ _ (inv_objs _ _ _ _ Hh) Hob) in Ha. by injection Ha. }
  intros Hob1 Hob2. unfold h_align_raw.
  eapply ok_bind; [apply ok_look|intros y1 _]. eapply ok_bind; [apply ok_look|intros y2 _].
  case_decide; [apply ok_err|]. eapply ok_bind; [apply ok_lift|intros js _].
  eapply ok_bind; [by apply Hld|intros x1 ->]. eapply ok_bind; [by apply Hld|intros x2 ->].
  apply ok_foldC; [split; by right|]. intros s ax [Hs1 Hs2]. unfold h_align_step.
  eapply ok_bind; [apply ok_lift|intros st _]. eapply ok_bind; [apply ok_lift|intros jx _]. cbn zeta.
  eapply (ok_bind _ _ _ (fun x => newA h0 x \/ x = o_x ob1)).
  { case_match; [eapply ok_weak; [apply ok_alloc|by left]|by apply ok_ret]. }
  intros x1 Hx1. eapply (ok_bind _ _ _ (fun x => newA h0 x \/ x = o_x ob2)).
  { case_match; [eapply ok_weak; [apply ok_alloc|by left]|by apply ok_ret]. }
  intros x2 Hx2. by apply ok_ret.
Qed.
Lemma h_put_scalar_keeps (X : part -> Prop) h0 a mask v h h' r : keeps X h0 h -> h_put_scalar a mask v h = (h', r) ->
  (forall x, arr_part a x -> X x \/ content_of h0 x = None) -> keeps X h0 h'.
Proof.
  intros Hk Hp Ha. unfold h_put_scalar, mbind, cmd_bind, load, look, lift in Hp.
  destruct (read_arr h a) as [x|]; simpl in Hp; [|by injection Hp as <- <-].
  destruct (put_scalar x mask v) as [x'|e]; [|by injection Hp as <- <-].
  by eapply write_keeps.
Qed.
Lemma h_new_own h0 z h' q : h_new z h0 = (h', Ok q) -> own h0 h' (HLarry q).
Proof.
  intros He. destruct (ok_h_new (strict h0) z h0 (inv_refl (strict h0))) as [Hinv Hq]. rewrite He in Hinv, Hq.
  apply strict_own; [done|]. by apply Hq.
Qed.
Lemma h_new_ext h0 z h' r : h_new z h0 = (h', r) -> ext h0 h'.
Proof.
  intros He. destruct (ok_h_new (strict h0) z h0 (inv_refl (strict h0))) as [Hinv _]. rewrite He in Hinv.
  exact (inv_ext _ _ Hinv).
Qed.
Lemma bind_at {A B} (m : cmd A) (f : A -> cmd B) h : (x ← m; f x) h = match m h with (h', Ok a) => f a h' | (h', Err e) => (h', Err e) end.
Proof. done. Qed.
Lemma h_binaryop_keeps f p1 p2 j cast m1 m2 h h' r : h_binaryop f p1 p2 j cast m1 m2 h = (h', r) ->
  keeps (fun x => part_of h p1 x \/ part_of h p2 x) h h' /\ forall q, r = Ok q -> own h h' (HLarry q).
Proof.
  set (X := fun x => part_of h p1 x \/ part_of h p2 x).
  assert (forall h' (r : res nat) e, r = Err e -> keeps X h h' -> keeps X h h' /\ forall q, r = Ok q -> own h h' (HLarry q)) as Herr.
  { intros ? ? ? -> Hk. split; [done|]. by intros q [=]. }
  unfold h_binaryop. rewrite bind_at.
  destruct (h_objs h !! p1) as [ob1|] eqn:Hob1; cycle 1.
  { unfold h_align_raw. rewrite bind_at. unfold value at 1, look at 1. unfold read_larry at 1. rewrite Hob1. simpl.
    intros [= <- <-]. eapply Herr; [done|apply keeps_refl]. }
  destruct (h_objs h !! p2) as [ob2|] eqn:Hob2; cycle 1.
  { unfold h_align_raw. rewrite bind_at. unfold value at 1, look at 1.
    destruct (read_larry h p1); simpl of_opt; cbn iota beta; [|intros [= <- <-]; eapply Herr; [done|apply keeps_refl]].
    rewrite bind_at. unfold value at 1, look at 1. unfold read_larry at 1. rewrite Hob2. simpl.
    intros [= <- <-]. eapply Herr; [done|apply keeps_refl]. }
  destruct (ok_h_align_raw_from h p1 p2 ob1 ob2 j cast Hob1 Hob2 h (inv_refl (strict h))) as [Hinv Hs].
  destruct (h_align_raw p1 p2 j cast h) as [h1 r1] eqn:E1. simpl in Hinv, Hs.
  assert (keeps X h h1) as Hk1 by (apply ext_keeps; exact (inv_ext _ _ Hinv)).
  destruct r1 as [s|e]; [|intros [= <- <-]; by eapply Herr].
  destruct (Hs s eq_refl) as [Hs1 Hs2]. clear Hs.
  assert (forall x, arr_part (hal_x1 s) x -> X x \/ content_of h x = None) as Ha1.
  { intros x Hx. destruct Hs1 as [Hs1|Hs1]; [right; by eapply newA_own|]. left. left. exists ob1. split; [done|].
    do 3 right. by rewrite <-Hs1. }
  assert (forall x, arr_part (hal_x2 s) x -> X x \/ content_of h x = None) as Ha2.
  { intros x Hx. destruct Hs2 as [Hs2|Hs2]; [right; by eapply newA_own|]. left. right. exists ob2. split; [done|].
    do 3 right. by rewrite <-Hs2. }
  clear Hinv E1.
  assert (forall (m : cmd unit) (k : cmd nat) hx, keeps X h hx ->
    (forall hy ry, m hx = (hy, ry) -> keeps X h hy) ->
    (forall hy, keeps X h hy -> k hy = (h', r) -> keeps X h h' /\ forall q, r = Ok q -> own h h' (HLarry q)) ->
    (_ ← m; k) hx = (h', r) -> keeps X h h' /\ forall q, r = Ok q -> own h h' (HLarry q)) as Hseq.
  { intros m k hx Hkx Hm Hk. rewrite bind_at. destruct (m hx) as [hy [u|e]] eqn:E; [apply Hk; by eapply Hm|].
    intros [= <- <-]. eapply Herr; [done|by eapply Hm]. }
  assert (forall a1 a2 mask1 mask2 v hx hy ry, (forall x, arr_part a1 x -> X x \/ content_of h x = None) ->
    (forall x, arr_part a2 x -> X x \/ content_of h x = None) -> keeps X h hx ->
    (_ ← h_put_scalar a1 mask1 v; h_put_scalar a2 mask2 v) hx = (hy, ry) -> keeps X h hy) as Hput.
  { intros a1 a2 mask1 mask2 v hx hy ry Hx1 Hx2 Hkx. rewrite bind_at.
    destruct (h_put_scalar a1 mask1 v hx) as [hz [u|e]] eqn:E.
    - intros E2. eapply h_put_scalar_keeps; [|exact E2|done]. by eapply h_put_scalar_keeps.
    - intros [= <- <-]. by eapply h_put_scalar_keeps. }
  rewrite bind_at. unfold load at 1, look at 1. destruct (read_arr h1 (hal_x1 s)) as [x1|]; simpl of_opt; cbn iota beta;
    [|intros [= <- <-]; by eapply Herr].
  rewrite bind_at. unfold load at 1, look at 1. destruct (read_arr h1 (hal_x2 s)) as [x2|]; simpl of_opt; cbn iota beta;
    [|intros [= <- <-]; by eapply Herr].
  cbn zeta. case_decide; [intros [= <- <-]; by eapply Herr|].
  apply Hseq; [done| |].
  { intros hy ry. destruct m1; [by apply Hput|by intros [= <- <-]]. }
  intros h2 Hk2. apply Hseq; [done| |].
  { intros hy ry. destruct m2; [by apply Hput|by intros [= <- <-]]. }
  intros h3 Hk3.
  rewrite bind_at. unfold load at 1, look at 1. destruct (read_arr h3 (hal_x1 s)) as [x3|]; simpl of_opt; cbn iota beta;
    [|intros [= <- <-]; by eapply Herr].
  rewrite bind_at. unfold load at 1, look at 1. destruct (read_arr h3 (hal_x2 s)) as [x4|]; simpl of_opt; cbn iota beta;
    [|intros [= <- <-]; by eapply Herr].
  rewrite bind_at. unfold lift at 1. destruct (f x3 x4) as [x|e]; [|intros [= <- <-]; by eapply Herr].
  rewrite bind_at. unfold lift at 1. destruct (of_opt _ _) as [lb|e]; [|intros [= <- <-]; by eapply Herr].
  intros Hn. split.
  - eapply keeps_trans; [exact Hk3|]. apply ext_keeps. by eapply h_new_ext.
  - intros q ->. intros u Hx. pose proof (h_new_own _ _ _ _ Hn u Hx) as Hno.
    destruct (content_of h u) as [c|] eqn:Hc; [|done]. destruct (Hk3 u) as [[c' Hc'] _]; [by rewrite Hc|]. congruence.
Qed.

(** * maplabel and flipaxis with copy=False *)

(** The state while [p], whose list of labels is [o], is changed. *)
Definition relabelling (h0 : heap) (p o : nat) (h : heap) : Prop :=
  keeps (fun x => x = PObj p \/ x = POuter o) h0 h /\ exists ob, h_objs h !! p = Some ob /\ o_label ob = o.
Definition stays {A} (h0 : heap) (p o : nat) (m : cmd A) (Q : A -> Prop) : Prop :=
  forall h, relabelling h0 p o h -> relabelling h0 p o (fst (m h)) /\ forall a, snd (m h) = Ok a -> Q a.
Section stays.
Context (h0 : heap) (p o : nat).
Notation J := (stays h0 p o).
Lemma stays_bind {A B} (m : cmd A) (f : A -> cmd B) Q R : J m Q -> (forall a, Q a -> J (f a) R) -> J (x ← m; f x) R.
Proof.
  intros Hm Hf h Hh. destruct (Hm h Hh) as [Hh' Ha]. rewrite bind_at.
  destruct (m h) as [h' [a|e]]; simpl in *; [apply Hf; [by apply Ha|done]|]. split; [done|]. intros a [=].
Qed.
Lemma stays_ret {A} (a : A) (Q : A -> Prop) : Q a -> J (ret a) Q.
Proof. intros Ha h Hh. split; [done|]. by intros b [= <-]. Qed.
Lemma stays_lift {A} (r : res A) : J (lift r) (fun _ => True).
Proof. intros h Hh. by split. Qed.
Lemma stays_look {A} (f : heap -> option A) : J (look f) (fun _ => True).
Proof. intros h Hh. by split. Qed.
Lemma stays_ld_label : J (ld_label p) (fun o' => o' = o).
Proof.
  intros h Hh. split; [done|]. intros a Ha. destruct Hh as [_ (ob & Hob & Ho)].
  unfold ld_label, look in Ha. simpl in Ha. rewrite Hob in Ha. simpl in Ha. by injection Ha as <-.
Qed.
Lemma stays_new_list l : J (new_list l) (fun _ => True).
Proof.
  intros h [Hk (ob & Hob & Ho)]. split; [|done]. split; [|by exists ob]. eapply keeps_trans; [exact Hk|].
  apply ext_keeps. repeat split; simpl; try done. by apply prefix_app_r.
Qed.
Lemma stays_set_outer is : J (set_outer o is) (fun _ => True).
Proof.
  intros h [Hk (ob & Hob & Ho)]. split; [|done]. unfold set_outer.
  destruct (h_outers h !! o) as [is0|] eqn:Hlk; simpl; [|split; [done|by exists ob]]. split; [|by exists ob].
  eapply keeps_trans; [exact Hk|]. intros x Hx. destruct x as [b|b i|i|o'|q]; try done. simpl in *.
  destruct (decide (o' = o)) as [->|Hne].
  - rewrite list_lookup_insert by (by eapply lookup_lt_Some). split; [done|]. intros Hn. exfalso. apply Hn. by right.
  - by rewrite list_lookup_insert_ne.
Qed.
Lemma stays_set_x a : J (set_x p a) (fun _ => True).
Proof.
  intros h [Hk (ob & Hob & Ho)]. split; [|done]. unfold set_x, set_obj. rewrite Hob. simpl. split.
  - eapply keeps_trans; [exact Hk|]. intros x Hx. destruct x as [b|b i|i|o'|q]; try done. simpl in *.
    destruct (decide (q = p)) as [->|Hne].
    + rewrite list_lookup_insert by (by eapply lookup_lt_Some). split; [done|]. intros Hn. exfalso. apply Hn. by left.
    + by rewrite list_lookup_insert_ne.
  - exists (HObj a (o_label ob)). split; [|done]. simpl. rewrite list_lookup_insert; [done|]. by eapply lookup_lt_Some.
Qed.
Lemma stays_set_axis ax i : J (set_axis o ax i) (fun _ => True).
Proof. unfold set_axis. eapply stays_bind; [apply stays_look|intros is _]. apply stays_set_outer. Qed.
Lemma stays_foldC {T X} (f : T -> X -> cmd T) l a : (forall b x, J (f b x) (fun _ => True)) -> J (foldC f a l) (fun _ => True).
Proof.
  intros Hf. revert a. induction l as [|x l IH]; intros a; simpl; [by apply stays_ret|].
  eapply stays_bind; [apply Hf|intros b _; apply IH].
Qed.
Lemma stays_maplabel func axis : J (h_maplabel p func axis false) (fun q => q = p).
Proof.
  unfold h_maplabel. eapply stays_bind; [by apply (stays_ret p (fun q => q = p))|intros q ->].
  eapply stays_bind; [apply stays_look|intros y _].
  eapply stays_bind; [apply stays_foldC; intros _ a|intros _ _; by apply stays_ret].
  unfold h_maplabel_at. eapply stays_bind; [apply stays_ld_label|intros ? ->].
  eapply stays_bind; [apply stays_look|intros is _]. do 2 (eapply stays_bind; [apply stays_lift|intros ? _]).
  eapply stays_bind; [apply stays_look|intros l _]. eapply stays_bind; [apply stays_new_list|intros j _].
  apply stays_set_axis.
Qed.
Lemma stays_flipaxis axis : J (h_flipaxis p axis false) (fun q => q = p).
Proof.
  unfold h_flipaxis. eapply stays_bind; [by apply (stays_ret p (fun q => q = p))|intros q ->].
  eapply stays_bind; [apply stays_look|intros y _].
  eapply stays_bind; [apply stays_foldC; intros _ a|intros _ _; by apply stays_ret].
  unfold h_flip_at. eapply stays_bind; [apply stays_ld_label|intros ? ->].
  eapply stays_bind; [apply stays_look|intros is _]. do 2 (eapply stays_bind; [apply stays_lift|intros ? _]).
  eapply stays_bind; [apply stays_look|intros l _]. eapply stays_bind; [apply stays_lift|intros l' _].
  eapply stays_bind; [apply stays_new_list|intros j _]. eapply stays_bind; [apply stays_set_axis|intros _ _].
  eapply stays_bind; [apply stays_look|intros b _].
  eapply stays_bind; [|intros b' _; apply stays_set_x].
  unfold view. eapply stays_bind; [apply stays_lift|intros q _]. by apply (stays_ret _ (fun _ => True)).
Qed.
End stays.
Lemma nocopy_keeps (m : cmd nat) p h h' r : (forall o, stays h p o m (fun q => q = p)) ->
  (h_objs h !! p = None -> m h = (h, Err RuntimeError)) -> m h = (h', r) ->
  (forall q, r = Ok q -> q = p) /\
  forall x c, content_of h x = Some c -> x <> PObj p -> (forall ob, h_objs h !! p = Some ob -> x <> POuter (o_label ob)) ->
    content_of h' x = Some c.
Proof.
  intros Hm Hno He. destruct (h_objs h !! p) as [ob|] eqn:Hob.
  - destruct (Hm (o_label ob) h) as [Hk Hq]; [split; [apply keeps_refl|by exists ob]|]. rewrite He in Hk, Hq.
    split; [exact Hq|]. intros x c Hc Hp Ho. destruct Hk as [Hk _]. destruct (Hk x) as [_ Hs]; [by rewrite Hc|].
    simpl in Hs. rewrite Hs; [done|]. intros [->| ->]; [done|by eapply Ho].
  - rewrite (Hno eq_refl) in He. injection He as <- <-. split; [by intros q [=]|done].
Qed.
Lemma h_maplabel_nocopy func axis p h h' r : h_maplabel p func axis false h = (h', r) ->
  (forall q, r = Ok q -> q = p) /\
  forall x c, content_of h x = Some c -> x <> PObj p -> (forall ob, h_objs h !! p = Some ob -> x <> POuter (o_label ob)) ->
    content_of h' x = Some c.
Proof.
  apply nocopy_keeps; [intros o; apply stays_maplabel|]. intros Hno. unfold h_maplabel, ret.
  rewrite bind_at. cbn iota beta. rewrite bind_at. unfold value at 1, look at 1, read_larry at 1. by rewrite Hno.
Qed.
Lemma h_flipaxis_nocopy axis p h h' r : h_flipaxis p axis false h = (h', r) ->
  (forall q, r = Ok q -> q = p) /\
  forall x c, content_of h x = Some c -> x <> PObj p -> (forall ob, h_objs h !! p = Some ob -> x <> POuter (o_label ob)) ->
    content_of h' x = Some c.
Proof.
  apply nocopy_keeps; [intros o; apply stays_flipaxis|]. intros Hno. unfold h_flipaxis, ret.
  rewrite bind_at. cbn iota beta. rewrite bind_at. unfold value at 1, look at 1, read_larry at 1. by rewrite Hno.
Qed.

(** * Statements for calls *)

Lemma ext_refl h : ext h h.
Proof. by repeat split. Qed.
Lemma ext_trans h1 h2 h3 : ext h1 h2 -> ext h2 h3 -> ext h1 h3.
Proof. intros (?&?&?&?) (?&?&?&?). repeat split; by etrans. Qed.
Lemma hrun_ext prog h ps h' r : Forall (fun c => in_place c = None /\ may_write c = false) prog ->
  hrun ps prog h = (h', r) -> ext h h'.
Proof.
  intros Hp. revert h ps. induction Hp as [|c prog [Hi Hw] _ IH]; intros h ps; simpl.
  - intros [= <- <-]. apply ext_refl.
  - rewrite bind_at. destruct (hexec ps c h) as [h1 r1] eqn:E. pose proof (hexec_ext _ _ _ _ _ Hi Hw E) as Hext.
    destruct r1 as [rs|e]; [|by intros [= <- <-]]. intros He. eapply ext_trans; [exact Hext|]. by eapply IH.
Qed.
Lemma hrun_unchanged prog h ps h' r : Forall (fun c => in_place c = None /\ may_write c = false) prog ->
  hrun ps prog h = (h', r) -> unchanged h h' /\ forall p y, read_larry h p = Some y -> read_larry h' p = Some y.
Proof.
  intros Hp He. pose proof (hrun_ext _ _ _ _ _ Hp He) as Hext. split; [by apply ext_unchanged|].
  intros p y. by apply read_larry_ext.
Qed.
Lemma hexec_in_place_only h ps c i p h' r : in_place c = Some i -> ps !! i = Some p -> hexec ps c h = (h', r) ->
  forall x, ~ part_of h p x -> content_of h' x = content_of h x.
Proof.
  intros Hi Hp He. destruct (hexec_in_place _ _ _ _ _ _ Hi He) as [[Hno _]|(p' & Hp' & Honly & _)]; [congruence|].
  rewrite Hp in Hp'. by injection Hp' as <-.
Qed.
Lemma nocopy_only h p h' r : (exists func axis, h_maplabel p func axis false h = (h', r)) \/
  (exists axis, h_flipaxis p axis false h = (h', r)) ->
  (forall q, r = Ok q -> q = p) /\
  forall x c, content_of h x = Some c -> x <> PObj p -> (forall ob, h_objs h !! p = Some ob -> x <> POuter (o_label ob)) ->
    content_of h' x = Some c.
Proof. intros [(func & axis & He)|(axis & He)]; [by eapply h_maplabel_nocopy|by eapply h_flipaxis_nocopy]. Qed.
Lemma hexec_independent h ps c h' rs q z : in_place c = None -> may_write c = false -> may_share c = false ->
  Forall (fun p => exists y, read_larry h p = Some y /\ valid y) ps ->
  hexec ps c h = (h', Ok rs) -> HLarry q ∈ rs -> read_larry h' q = Some z ->
  (forall qs d i h2 r, in_place d = Some i -> qs !! i = Some q -> hexec qs d h' = (h2, r) ->
    forall p y, read_larry h p = Some y -> read_larry h2 p = Some y) /\
  (forall qs d i p y h2 r, in_place d = Some i -> qs !! i = Some p -> read_larry h p = Some y -> hexec qs d h' = (h2, r) ->
    read_larry h2 q = Some z).
Proof.
  intros Hi Hw Hs Hps He Hq Hz. pose proof (hexec_own _ _ _ _ _ Hi Hw Hs Hps He) as Hown.
  rewrite Forall_forall in Hown. apply Hown in Hq. pose proof (hexec_ext _ _ _ _ _ Hi Hw He) as Hext. split.
  - intros qs d i h2 r Hd Hqs He2 p y Hy. eapply read_larry_same; [|exact Hy]. intros x Hx.
    destruct (read_parts _ _ _ _ Hy Hx) as [ct Hct]. rewrite Hct.
    by eapply own_keeps_old.
  - intros qs d i p y h2 r Hd Hqs Hy He2. by eapply old_keeps_own.
Qed.
Lemma hexec_merge_diff h p1 p2 y1 y2 update h' r : read_larry h p1 = Some y1 -> read_larry h p2 = Some y2 ->
  valid y1 -> valid y2 -> llabel y1 <> llabel y2 -> hexec [p1; p2] (CMerge 0 1 update) h = (h', r) ->
  unchanged h h' /\ forall rs, r = Ok rs -> Forall (own h h') rs.
Proof.
  intros H1 H2 (_ & _ & Hn1 & _) (_ & _ & Hn2 & _) Hne He. change (one (h_merge p1 p2 update) h = (h', r)) in He.
  assert (length (llabel y1) = lndim y1) as Hm1 by (unfold lndim; by rewrite <-Hn1, fmap_length).
  assert (length (llabel y2) = lndim y2) as Hm2 by (unfold lndim; by rewrite <-Hn2, fmap_length).
  pose proof (ok_h_merge_diff h p1 p2 y1 y2 update H1 H2 Hm1 Hm2 Hne) as Hok.
  destruct (ok_one h _ Hok h (inv_refl (strict h))) as [Hinv Hr]. rewrite He in Hinv, Hr. split.
  - apply ext_unchanged. exact (inv_ext _ _ Hinv).
  - intros rs ->. specialize (Hr rs eq_refl). eapply Forall_impl; [exact Hr|]. intros r. by apply strict_own.
Qed.
Lemma hexec_merge_same h p1 p2 y1 y2 update h' r : read_larry h p1 = Some y1 -> read_larry h p2 = Some y2 ->
  llabel y1 = llabel y2 -> hexec [p1; p2] (CMerge 0 1 update) h = (h', r) ->
  (forall rs, r = Ok rs -> rs = [HLarry p1]) /\ forall x, ~ part_of h p1 x -> content_of h' x = content_of h x.
Proof.
  intros H1 H2 Hl He. change (one (h_merge p1 p2 update) h = (h', r)) in He. unfold one in He. rewrite bind_at in He.
  destruct (h_merge p1 p2 update h) as [h1 r1] eqn:E.
  destruct (h_merge_same _ _ _ _ _ _ _ _ H1 H2 Hl E) as (Hq & Honly & _).
  destruct r1 as [q|e]; injection He as <- <-; [|split; [by intros rs [=]|done]].
  rewrite (Hq q eq_refl). split; [by intros rs [= <-]|done].
Qed.
Lemma hexec_binaryop h p1 p2 op join cast m1 m2 h' r :
  hexec [p1; p2] (CBinaryop op 0 1 join cast m1 m2) h = (h', r) ->
  (forall x c, content_of h x = Some c -> ~ part_of h p1 x -> ~ part_of h p2 x -> content_of h' x = Some c) /\
  forall rs, r = Ok rs -> Forall (own h h') rs.
Proof.
  intros He. change (one (h_binaryop (np_arith op) p1 p2 join cast m1 m2) h = (h', r)) in He. unfold one in He. rewrite bind_at in He.
  destruct (h_binaryop _ p1 p2 join cast m1 m2 h) as [h1 r1] eqn:E.
  destruct (h_binaryop_keeps _ _ _ _ _ _ _ _ _ _ E) as [Hk Hown].
  assert (h1 = h') as -> by (destruct r1; by injection He). split.
  - intros x c Hc Hn1 Hn2. destruct (Hk x) as [_ Hs]; [by rewrite Hc|]. rewrite Hs; [done|]. by intros [?|?].
  - intros rs ->. destruct r1 as [q|e]; [|done]. injection He as <-. constructor; [by apply Hown|done].
Qed.
