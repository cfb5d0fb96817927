(** Facts about archives. *)
From Verif Require Export Archive LarryFacts AlignMore.
From Coq Require Import Ascii DecimalString DecimalNat DecimalFacts.
From stdpp Require Import gmap stringmap.

(** * Names *)

Lemma str_nat_inj i j : str_nat i = str_nat j -> i = j.
Proof.
  unfold str_nat. intros H. assert (Nat.to_uint i = Nat.to_uint j) as E.
  { assert (NilEmpty.uint_of_string (NilEmpty.string_of_uint (Nat.to_uint i)) = NilEmpty.uint_of_string (NilEmpty.string_of_uint (Nat.to_uint j))) as E by (by rewrite H).
    rewrite !NilEmpty.usu in E. congruence. }
  rewrite <-(Unsigned.of_to i), <-(Unsigned.of_to j). by rewrite E.
Qed.
Lemma str_nat_x i : str_nat i <> "x"%string.
Proof. unfold str_nat. destruct (Nat.to_uint i); simpl; discriminate. Qed.
Lemma split_slash_ne s : split_slash s <> [].
Proof. induction s as [|c s IH]; [done|]. simpl. destruct (split_slash s); [done|]. by case_decide. Qed.
Lemma split_slash_flat s : ~ has_char slash s -> split_slash s = [s].
Proof.
  induction s as [|c s IH]; [done|]. simpl. intros H. rewrite IH by tauto. rewrite decide_False; [done|]. intros ->. tauto.
Qed.
Lemma path_of_flat k : flat k -> path_of k = [k].
Proof. intros (H1 & H2 & H3). unfold path_of. rewrite split_slash_flat by done. rewrite filter_cons_True by done. done. Qed.
Lemma h5_get_flat f k : flat k -> h5_get f k = node_get f [k].
Proof. intros H. unfold h5_get. rewrite decide_False by apply H. by rewrite path_of_flat. Qed.

(** * Dictionaries *)

Lemma dict_set_set {V} (k : string) (v w : V) d : dict_set k v (dict_set k w d) = dict_set k v d.
Proof.
  induction d as [|[k' v'] d IH]; simpl; [by rewrite decide_True|].
  destruct (decide (k = k')); simpl; [by rewrite decide_True|]. rewrite decide_False by done. by rewrite IH.
Qed.
Lemma dict_set_id {V} (k : string) (v : V) d : dict_get d k = Some v -> dict_set k v d = d.
Proof.
  induction d as [|[k' v'] d IH]; simpl; [done|]. destruct (decide (k = k')); [naive_solver|]. intros. by rewrite IH.
Qed.
Lemma dict_del_cons {V} k k0 v0 (d : pydict string V) :
  dict_del k ((k0, v0) :: d) = if decide (k0 = k) then dict_del k d else (k0, v0) :: dict_del k d.
Proof. unfold dict_del. cbn [filter list_filter fst]. destruct (decide (k0 <> k)), (decide (k0 = k)); done. Qed.
Lemma dict_get_del {V} k k' (d : pydict string V) : dict_get (dict_del k d) k' = if decide (k' = k) then None else dict_get d k'.
Proof.
  induction d as [|[k0 v0] d IH]; [by case_decide|]. rewrite dict_del_cons.
  destruct (decide (k0 = k)) as [Hk|Hk]; simpl; rewrite IH; repeat case_decide; naive_solver.
Qed.
Lemma dict_del_nodup {V} k (d : pydict string V) : NoDup d.*1 -> NoDup (dict_del k d).*1.
Proof.
  induction d as [|[k0 v0] d IH]; [done|]. csimpl. rewrite NoDup_cons. intros [H1 H2]. rewrite dict_del_cons.
  case_decide; [auto|]. csimpl. constructor; [|auto]. intros (p & -> & Hp)%elem_of_list_fmap. apply elem_of_list_filter in Hp as [_ Hp].
  apply H1. by apply elem_of_list_fmap_1.
Qed.
Lemma dict_get_Some_in {V} k (d : pydict string V) : k ∈ d.*1 <-> exists v, dict_get d k = Some v.
Proof.
  destruct (dict_get d k) as [v|] eqn:E.
  - split; [eauto|]. intros _. apply elem_of_list_fmap. exists (k, v). split; [done|by apply dict_get_elem].
  - apply dict_get_None in E. naive_solver.
Qed.
Lemma dict_get_in_nodup {V} k v (d : pydict string V) : NoDup d.*1 -> (k, v) ∈ d -> dict_get d k = Some v.
Proof.
  induction d as [|[k0 v0] d IH]; csimpl; [by intros _ ?%elem_of_nil|]. intros [H1 H2]%NoDup_cons [E|Hin]%elem_of_cons.
  - injection E as -> ->. by rewrite decide_True.
  - rewrite decide_False; [auto|]. intros ->. apply H1. apply elem_of_list_fmap. by exists (k0, v).
Qed.

(** * Programs *)

Lemma final_app {S} (s : S) t1 t2 : final s (t1 ++ t2) = final (final s t1) t2.
Proof.
  unfold final. destruct t2 as [|x t2] using rev_ind; [by rewrite app_nil_r|]. rewrite app_assoc, !last_snoc. done.
Qed.
Lemma final_fmap {S T} (F : S -> T) s t : final (F s) (F <$> t) = F (final s t).
Proof. unfold final. rewrite fmap_last. by destruct (last t). Qed.
Lemma final_in {S} (s : S) t : final s t = s \/ final s t ∈ t.
Proof. unfold final. destruct (last t) eqn:E; [right|by left]. simpl. by apply last_Some_elem_of. Qed.
Lemma pbind_ok {S A B} (m : prog S A) (k : A -> prog S B) s t a : m s = (t, Ok a) ->
  pbind m k s = (t ++ (k a (final s t)).1, (k a (final s t)).2).
Proof. unfold pbind. intros ->. by destruct (k a (final s t)). Qed.
Lemma pbind_err {S A B} (m : prog S A) (k : A -> prog S B) s t e : m s = (t, Err e) -> pbind m k s = (t, Err e).
Proof. unfold pbind. by intros ->. Qed.
Lemma pbind_ret {S A B} (a : A) (k : A -> prog S B) s : pbind (pret a) k s = k a s.
Proof. unfold pbind, pret. unfold final. simpl. by destruct (k a s). Qed.
Lemma pbind_get {S B} (k : S -> prog S B) s : pbind pget k s = k s s.
Proof. unfold pbind, pget. unfold final. simpl. by destruct (k s s). Qed.
Lemma pbind_lift_ok {S A B} (a : A) (k : A -> prog S B) s : pbind (plift (Ok a)) k s = k a s.
Proof. unfold pbind, plift. unfold final. simpl. by destruct (k a s). Qed.
Lemma pbind_lift_err {S A B} e (k : A -> prog S B) s : pbind (plift (Err e)) k s = ([], Err e).
Proof. done. Qed.

(** All states a program passes satisfy [P]. *)
Definition keeps {S A} (P : S -> Prop) (m : prog S A) : Prop := forall s, P s -> Forall P (m s).1.
Lemma keeps_final {S A} (P : S -> Prop) (m : prog S A) s : keeps P m -> P s -> P (final s (m s).1).
Proof. intros H Hs. destruct (final_in s (m s).1) as [-> |Hin]; [done|]. by eapply Forall_forall in Hin; [|apply H]. Qed.
Lemma keeps_bind {S A B} (P : S -> Prop) (m : prog S A) (k : A -> prog S B) :
  keeps P m -> (forall a, keeps P (k a)) -> keeps P (pbind m k).
Proof.
  intros Hm Hk s Hs. unfold pbind. pose proof (Hm s Hs) as H1. pose proof (keeps_final P m s Hm Hs) as H2.
  destruct (m s) as [t [a|e]]; simpl in *; [|done]. pose proof (Hk a _ H2) as H3. destruct (k a (final s t)) as [t2 r2]. simpl in *.
  by apply Forall_app.
Qed.
Lemma keeps_nil {S A} (P : S -> Prop) (r : res A) : keeps P (fun s => ([], r)).
Proof. intros s _. constructor. Qed.
Lemma keeps_get {S} (P : S -> Prop) : keeps P (@pget S).
Proof. intros s _. constructor. Qed.
Lemma keeps_get_bind {S B} (P : S -> Prop) (k : S -> prog S B) :
  (forall s, P s -> Forall P (k s s).1) -> keeps P (pbind pget k).
Proof. intros H s Hs. rewrite pbind_get. auto. Qed.
Lemma keeps_for {S X} (P : S -> Prop) (f : X -> prog S unit) l : (forall x, x ∈ l -> keeps P (f x)) -> keeps P (pfor f l).
Proof.
  induction l as [|x l IH]; intros H; [apply keeps_nil|]. simpl. apply keeps_bind; [apply H; by left|]. intros _.
  apply IH. intros. apply H. by right.
Qed.

(** * Paths *)

(** A program below member [k] of a group, seen from the group. *)
Definition lifts {A} (k : string) (m m0 : prog node A) : Prop := forall a ms c, dict_get ms k = Some c ->
  m (NGroup a ms) = ((fun c' => NGroup a (dict_set k c' ms)) <$> (m0 c).1, (m0 c).2).
Lemma lifts_nil {A} k (r : res A) : lifts k (fun s => ([], r)) (fun s => ([], r)).
Proof. intros a ms c H. done. Qed.
Lemma lifts_bind {A B} k (m m0 : prog node A) (g g0 : A -> prog node B) :
  lifts k m m0 -> (forall a, lifts k (g a) (g0 a)) -> lifts k (pbind m g) (pbind m0 g0).
Proof.
  intros Hm Hg a ms c Hc. unfold pbind. rewrite (Hm a ms c Hc). destruct (m0 c) as [t [x|e]] eqn:Em; simpl; [|done].
  assert (final (NGroup a ms) ((fun c' => NGroup a (dict_set k c' ms)) <$> t) = NGroup a (dict_set k (final c t) ms)) as ->.
  { replace (NGroup a ms) with ((fun c' => NGroup a (dict_set k c' ms)) c) at 1 by (by rewrite dict_set_id).
    exact (final_fmap (fun c' => NGroup a (dict_set k c' ms)) c t). }
  rewrite (Hg x a (dict_set k (final c t) ms) (final c t)).
  - destruct (g0 x (final c t)) as [t2 r2]. simpl. f_equal. rewrite fmap_app. f_equal. apply list_fmap_ext. intros _ c' _.
    by rewrite dict_set_set.
  - by rewrite dict_get_set, decide_True.
Qed.
Lemma lifts_alter k e g p : lifts k (h5_alter e g (k :: p)) (h5_alter e g p).
Proof. intros a ms c Hc. unfold h5_alter. simpl. rewrite Hc. simpl. by destruct (node_alter g c p). Qed.
Lemma lifts_for {X} k (f f0 : X -> prog node unit) l : (forall x, lifts k (f x) (f0 x)) -> lifts k (pfor f l) (pfor f0 l).
Proof. intros H. induction l as [|x l IH]; [apply lifts_nil|]. simpl. by apply lifts_bind. Qed.

(** [save] below the group of the larry. *)
Definition save_here (y : larry) : prog node unit :=
  _ <- h5_alter RuntimeError set_larry [];;
  _ <- (if decide (ldtype y = DObj) then praise TypeError else h5_alter RuntimeError (add_member "x"%string (NX (lx y))) []);;
  pfor (save_label []) (zip (seq 0 (lndim y)) (llabel y)).
Lemma save_flat a ms y k :
  flat k -> dict_get ms k = None ->
  save (Some y) (Some k) (NGroup a ms) =
  ((fun c => NGroup a (dict_set k c ms)) <$> (NGroup false [] :: (save_here y (NGroup false [])).1), (save_here y (NGroup false [])).2).
Proof.
  intros Hk Hms. unfold save. rewrite path_of_flat by done.
  assert (Hn : create_nested [] [k] (NGroup a ms) = ([NGroup a (dict_set k (NGroup false []) ms)], Ok ())).
  { simpl. rewrite pbind_get. simpl. rewrite Hms. simpl. unfold pbind, h5_alter. simpl. rewrite Hms. done. }
  rewrite (pbind_ok _ _ _ _ _ Hn). simpl app. set (f1 := NGroup a (dict_set k (NGroup false []) ms)).
  change (final (NGroup a ms) [f1]) with f1. rewrite pbind_get, h5_get_flat by done. simpl. rewrite dict_get_set, decide_True by done.
  simpl. rewrite pbind_lift_ok.
  assert (Hl : lifts k (_ <- h5_alter RuntimeError set_larry [k];;
      _ <- (if decide (ldtype y = DObj) then praise TypeError else h5_alter RuntimeError (add_member "x"%string (NX (lx y))) [k]);;
      pfor (save_label [k]) (zip (seq 0 (lndim y)) (llabel y))) (save_here y)).
  { apply lifts_bind; [apply lifts_alter|]. intros _. apply lifts_bind.
    - case_decide; [apply lifts_nil|apply lifts_alter].
    - intros _. apply lifts_for. intros p. unfold save_label. apply lifts_bind; [apply lifts_nil|]. intros q.
      apply lifts_bind; [apply lifts_alter|]. intros _. simpl app. apply lifts_alter. }
  unfold f1. rewrite (Hl a _ (NGroup false [])) by (by rewrite dict_get_set, decide_True). simpl. f_equal. f_equal.
  apply list_fmap_ext. intros _ c _. by rewrite dict_set_set.
Qed.

(** * The states of a group while a larry is saved *)

Definition unfinished (y : larry) (n : node) : Prop :=
  exists b ms, n = NGroup b ms /\ NoDup ms.*1 /\
  (dict_get ms "x"%string = None \/ ldtype y <> DObj /\ dict_get ms "x"%string = Some (NX (lx y))) /\
  (forall k c, dict_get ms k = Some c -> match c with NGroup _ _ => False | _ => True end) /\
  (forall i l, llabel y !! i = Some l -> dict_get ms (str_nat i) = None \/
     exists a dt o, list2array l = Ok (a, dt) /\ dict_get ms (str_nat i) = Some (NLabel a o) /\ (o = None \/ o = Some dt)).

Lemma unfinished_new y : unfinished y (NGroup false []).
Proof. exists false, []. split_and!; [done|constructor|by left|done|]. intros; by left. Qed.
Lemma keeps_alter0 (P : node -> Prop) e g : (forall n n', P n -> g n = Some n' -> P n') -> keeps P (h5_alter e g []).
Proof. intros H s Hs. unfold h5_alter. simpl. destruct (g s) as [s'|] eqn:E; simpl; [|constructor]. constructor; [by eapply H|constructor]. Qed.
Lemma save_label_unfinished y i l : llabel y !! i = Some l -> keeps (unfinished y) (save_label [] (i, l)).
Proof.
  intros Hl s Hs. unfold save_label. cbn [fst snd]. destruct (list2array l) as [[a dt]|e] eqn:Ea; [|constructor].
  rewrite pbind_lift_ok. cbn [fst snd]. revert s Hs.
  assert (K : keeps (unfinished y) (_ <- h5_alter RuntimeError (add_member (str_nat i) (NLabel a None)) [];;
     h5_alter RuntimeError (set_kind dt) ([] ++ [str_nat i]))); [|exact K].
  apply keeps_bind.
  - apply keeps_alter0. intros n n' (b & ms & -> & Hnd & Hx & Hg & Hls) Hn. simpl in Hn. destruct (dict_get ms (str_nat i)) eqn:Ei; [done|].
    injection Hn as <-. exists b, (dict_set (str_nat i) (NLabel a None) ms). split_and!; [done|by apply dict_set_nodup| | |].
    + rewrite !dict_get_set, !decide_False by (intros E; symmetry in E; by apply str_nat_x in E). done.
    + intros k c. rewrite dict_get_set. case_decide; [|apply Hg]. by intros [= <-].
    + intros j l' Hl'. rewrite dict_get_set. case_decide as Hij; [|by apply Hls]. apply str_nat_inj in Hij as ->. simplify_eq.
      right. exists a, dt, None. split_and!; auto.
  - intros _ n (b & ms & -> & Hnd & Hx & Hg & Hls). simpl. unfold h5_alter. simpl.
    destruct (dict_get ms (str_nat i)) as [c|] eqn:Ei; simpl; [|constructor]. destruct (Hls i l Hl) as [E|(a' & dt' & o & E1 & E2 & E3)]; [congruence|].
    assert (a' = a /\ dt' = dt) as [-> ->] by (split; congruence). assert (c = NLabel a o) as -> by congruence. simpl.
    constructor; [|constructor]. exists b, (dict_set (str_nat i) (NLabel a (Some dt)) ms). split_and!; [done|by apply dict_set_nodup| | |].
    + rewrite !dict_get_set, !decide_False by (intros E; symmetry in E; by apply str_nat_x in E). done.
    + intros k c. rewrite dict_get_set. case_decide; [|apply Hg]. by intros [= <-].
    + intros j l' Hl'. rewrite dict_get_set. case_decide as Hij; [|by apply Hls]. apply str_nat_inj in Hij as ->. simplify_eq.
      right. exists a, dt, (Some dt). split_and!; auto.
Qed.
Lemma save_here_unfinished y : keeps (unfinished y) (save_here y).
Proof.
  apply keeps_bind; [|intros _; apply keeps_bind; [|intros _]].
  - apply keeps_alter0. intros n n' (b & ms & -> & H) [= <-]. by exists true, ms.
  - case_decide as Hd; [apply keeps_nil|]. apply keeps_alter0. intros n n' (b & ms & -> & Hnd & Hx & Hg & Hls) Hn. simpl in Hn.
    destruct (dict_get ms "x"%string) eqn:E; [done|]. injection Hn as <-.
    exists b, (dict_set "x"%string (NX (lx y)) ms). split_and!; [done|by apply dict_set_nodup| | |].
    + right. split; [done|]. by rewrite dict_get_set, decide_True.
    + intros k c. rewrite dict_get_set. case_decide; [|apply Hg]. by intros [= <-].
    + intros j l' Hl'. rewrite dict_get_set, decide_False by apply str_nat_x. by apply Hls.
  - apply keeps_for. intros [i l] Hin. apply save_label_unfinished. apply elem_of_list_lookup in Hin as [j Hj].
    rewrite lookup_zip_with in Hj. destruct (seq 0 (lndim y) !! j) as [i'|] eqn:Ei; [|done]. simpl in Hj.
    destruct (llabel y !! j) as [l'|] eqn:El; [|done]. simpl in Hj. simplify_eq. apply lookup_seq in Ei as [-> _]. done.
Qed.

(** * Labels *)

Lemma all_of {A} (g : A -> lab) (P : A -> Prop) (l : list lab) :
  (forall a, a ∈ l -> exists z, a = g z /\ P z) -> exists zs, l = g <$> zs /\ Forall P zs.
Proof.
  induction l as [|a l IH]; intros H; [by exists []|].
  destruct (H a) as (z & -> & Hz); [by left|]. destruct IH as (zs & -> & Hzs); [intros; apply H; by right|].
  exists (z :: zs). split; [done|]. by constructor.
Qed.
Lemma mapR_fmap {A B C} (f : B -> res C) (g : A -> B) (h : A -> C) l :
  (forall z, z ∈ l -> f (g z) = Ok (h z)) -> mapR f (g <$> l) = Ok (h <$> l).
Proof.
  induction l as [|z l IH]; intros H; [done|]. csimpl. rewrite H by (by left). rewrite IH; [done|]. intros; apply H; by right.
Qed.
Lemma strip_nul_id s : no_final_nul s -> strip_nul s = s.
Proof.
  unfold no_final_nul. induction s as [|c s IH]; [done|]. simpl. destruct s as [|c' s].
  - simpl. intros H. rewrite decide_False; [done|]. by intros ->.
  - intros H. rewrite IH by done. done.
Qed.
Lemma kinds_same a l k : (forall b, b ∈ a :: l -> lab_kind b = k) -> forallb (fun i => bool_decide (lab_kind i = lab_kind a)) (a :: l) = true.
Proof.
  intros H. apply forallb_forall. intros b Hb%elem_of_list_In. apply bool_decide_eq_true. rewrite (H b Hb). symmetry. apply H. by left.
Qed.
Lemma label_round_trip l : plain_label l ->
  exists a dt, list2array l = Ok (a, dt) /\ load_axis (NLabel a (Some dt)) = Ok l /\ (lsize_of a = 0 -> l = []).
Proof.
  destruct l as [|a0 l0]; [intros _; by exists AEmpty, NotDatetime|]. intros Hp. unfold list2array.
  destruct Hp as [H|[H|[H|[H|H]]]].
  - apply (all_of LInt) in H as ([|z zs] & Heq & Hzs); [done|]. rewrite (kinds_same _ _ 0) by (rewrite Heq; by intros b (? & -> & _)%elem_of_list_fmap).
    rewrite Heq. assert (a0 = LInt z) as -> by (csimpl in Heq; congruence).
    rewrite (mapR_fmap _ _ id). 2:{ intros z' Hz'. eapply Forall_forall in Hzs; [|done]. unfold is_int64. by rewrite bool_decide_eq_true_2. }
    rewrite list_fmap_id. simpl. do 2 eexists. split; [done|]. done.
  - apply (all_of LStr) in H as ([|z zs] & Heq & Hzs); [done|]. rewrite (kinds_same _ _ 1) by (rewrite Heq; by intros b (? & -> & _)%elem_of_list_fmap).
    rewrite Heq. assert (a0 = LStr z) as -> by (csimpl in Heq; congruence).
    rewrite (mapR_fmap _ _ id). 2:{ intros z' Hz'. eapply Forall_forall in Hzs; [|done]. by rewrite strip_nul_id. }
    rewrite list_fmap_id. simpl. do 2 eexists. split; [done|]. done.
  - assert (H' : forall a, a ∈ a0 :: l0 -> exists d, a = LDate d /\ True) by naive_solver.
    apply (all_of LDate) in H' as ([|z zs] & Heq & _); [done|]. rewrite (kinds_same _ _ 2) by (rewrite Heq; by intros b (? & -> & _)%elem_of_list_fmap).
    rewrite Heq. assert (a0 = LDate z) as -> by (csimpl in Heq; congruence).
    rewrite (mapR_fmap _ _ id) by done. rewrite list_fmap_id. simpl. do 2 eexists. split; [done|]. done.
  - pose (g := fun p : Z * Z * Z * Z => let '(h, m, s, us) := p in LTime h m s us None).
    assert (H' : forall a, a ∈ a0 :: l0 -> exists p, a = g p /\ True).
    { intros a (h & m & s & us & ->)%H. by exists (h, m, s, us). }
    apply (all_of g) in H' as ([|z zs] & Heq & _); [done|].
    rewrite (kinds_same _ _ 3) by (rewrite Heq; by intros b ([[[??]?]?] & -> & _)%elem_of_list_fmap).
    rewrite Heq. assert (a0 = g z) as -> by (csimpl in Heq; congruence). pose (r := fun p : Z * Z * Z * Z => let '(h, m, s, us) := p in [h; m; s; us]).
    rewrite (mapR_fmap _ _ r) by (by intros [[[??]?]?] _).
    assert (exists h m s us, g z = LTime h m s us None) as (h & m & s & us & ->) by (destruct z as [[[??]?]?]; simpl; eauto 10).
    cbn [mbind res_bind]. do 2 eexists. split; [done|]. split; [|done]. cbn [load_axis]. rewrite decide_False by done. cbn [of_opt mbind res_bind decode].
    apply mapR_fmap. by intros [[[??]?]?] _.
  - pose (g := fun p : Z * Z * Z * Z * Z * Z * Z => let '(y, mo, d, h, m, s, us) := p in LDatetime y mo d h m s us None).
    assert (H' : forall a, a ∈ a0 :: l0 -> exists p, a = g p /\ True).
    { intros a (y & mo & d & h & m & s & us & ->)%H. by exists (y, mo, d, h, m, s, us). }
    apply (all_of g) in H' as ([|z zs] & Heq & _); [done|].
    rewrite (kinds_same _ _ 4) by (rewrite Heq; by intros b ([[[[[[??]?]?]?]?]?] & -> & _)%elem_of_list_fmap).
    rewrite Heq. assert (a0 = g z) as -> by (csimpl in Heq; congruence).
    pose (r := fun p : Z * Z * Z * Z * Z * Z * Z => let '(y, mo, d, h, m, s, us) := p in [y; mo; d; h; m; s; us]).
    assert (exists y mo d h m s us, g z = LDatetime y mo d h m s us None) as (y & mo & d & h & m & s & us & ->)
      by (destruct z as [[[[[[??]?]?]?]?]?]; simpl; eauto 10).
    rewrite (mapR_fmap _ _ r) by (by intros [[[[[[??]?]?]?]?]?] _).
    cbn [mbind res_bind]. do 2 eexists. split; [done|]. split; [|done]. cbn [load_axis]. rewrite decide_False by done. cbn [of_opt mbind res_bind decode].
    apply mapR_fmap. by intros [[[[[[??]?]?]?]?]?] _.
Qed.
Lemma list2array_err l e : list2array l = Err e -> e = TypeError.
Proof.
  unfold list2array. destruct l as [|a l]; [done|]. destruct (forallb _ _); [|naive_solver].
  destruct a; (intros [H|(? & _ & [=])]%bind_err; eapply mapR_err_all; [|exact H]; intros []; repeat case_match; naive_solver).
Qed.
Lemma list2array_mixed l : mixed_label l -> list2array l = Err TypeError.
Proof.
  intros (a & b & Ha & Hb & Hne). destruct l as [|c l]; [by apply elem_of_nil in Ha|]. unfold list2array.
  destruct (forallb _ _) eqn:E; [|done]. exfalso. rewrite forallb_forall in E. apply Hne.
  apply elem_of_list_In in Ha, Hb. apply E in Ha, Hb. apply bool_decide_eq_true in Ha, Hb. congruence.
Qed.

(** * Loading *)

Definition load_node (n : node) : res larry :=
  if is_archived n then
    label ← load_label n;
    match n with
    | NGroup _ ms =>
        match dict_get ms "x"%string with
        | Some (NX x) => make x (Some label)
        | _ => Err KeyError
        end
    | _ => Err KeyError
    end
  else Err KeyError.
Lemma load_alt f key : load f (Some key) = (n ← of_opt KeyError (h5_get f key); load_node n).
Proof. done. Qed.

Definition finished (y : larry) (n : node) : Prop :=
  unfinished y n /\ exists ms, n = NGroup true ms /\ dict_get ms "x"%string = Some (NX (lx y)) /\
  forall i l, llabel y !! i = Some l -> exists a dt, list2array l = Ok (a, dt) /\ dict_get ms (str_nat i) = Some (NLabel a (Some dt)).

Lemma finished_load y n : archivable y -> finished y n ->
  is_archived n = true /\ load_label n = Ok (llabel y) /\ load_node n = Ok y.
Proof.
  intros (Hv & _ & Hp) (_ & ms & -> & Hx & Hl).
  assert (Hnd : nd_ndim (lx y) = length (llabel y)) by (symmetry; by apply valid_ndim).
  assert (H1 : is_archived (NGroup true ms) = true).
  { simpl. rewrite Hx. apply forallb_forall. intros i Hi%in_seq. destruct (llabel y !! i) as [l|] eqn:El.
    - apply Hl in El as (a & dt & _ & ->). done.
    - apply lookup_ge_None in El. lia. }
  assert (H2 : load_label (NGroup true ms) = Ok (llabel y)).
  { simpl. rewrite Hx. apply mapR_ok. apply Forall2_same_length_lookup_2; [rewrite seq_length; done|].
    intros i j l Hi Hli. apply lookup_seq in Hi as [-> _]. simpl. pose proof Hli as Hli'. apply Hl in Hli as (a & dt & Ha & ->).
    rewrite Forall_lookup in Hp. destruct (label_round_trip l) as (a' & dt' & Ha' & Hr & _); [by eapply Hp|]. cbn [of_opt mbind res_bind].
    assert (a' = a /\ dt' = dt) as [-> ->] by (split; congruence). done. }
  split_and!; [done|done|]. unfold load_node. rewrite H1, H2. cbn [mbind res_bind]. rewrite Hx.
  destruct y as [x label]. apply make_some_valid; [apply Hv|]. done.
Qed.
Lemma unfinished_load y n : archivable y -> unfinished y n -> load_node n = Ok y \/ load_node n = Err KeyError.
Proof.
  intros (Hv & _ & Hp) (b & ms & -> & Hnd & Hx & _ & Hl).
  assert (Hd : nd_ndim (lx y) = length (llabel y)) by (symmetry; by apply valid_ndim).
  unfold load_node. destruct (is_archived (NGroup b ms)) eqn:Ea; [|by right].
  destruct b; [|done]. simpl in Ea. destruct Hx as [Hx|[_ Hx]]; rewrite Hx in Ea; [done|]. cbn [load_label]. rewrite Hx.
  rewrite forallb_forall in Ea.
  destruct (mapR _ (seq 0 (nd_ndim (lx y)))) as [label|e] eqn:Em; cbn [mbind res_bind].
  - left. assert (label = llabel y) as ->.
    { apply mapR_ok in Em. apply list_eq. intros i. pose proof (Forall2_length _ _ _ Em) as Hlen. rewrite seq_length in Hlen.
      destruct (llabel y !! i) as [l|] eqn:El.
      - assert (i < length (llabel y)) by (by eapply lookup_lt_Some). destruct (lookup_lt_is_Some_2 label i) as [l' El']; [lia|].
        rewrite El'. f_equal. pose proof (lookup_seq_lt 0 (nd_ndim (lx y)) i ltac:(lia)) as Hs. eapply Forall2_lookup_lr in Em; [|exact Hs|exact El']. simpl in Em.
        assert (Hin : In i (seq 0 (nd_ndim (lx y)))) by (apply in_seq; lia). apply Ea in Hin.
        destruct (Hl i l El) as [En|(a & dt & o & E1 & E2 & E3)]; [by rewrite En in Hin|]. rewrite E2 in Em. cbn [of_opt mbind res_bind] in Em.
        rewrite Forall_lookup in Hp. destruct (label_round_trip l) as (a' & dt' & Ha' & Hr & Hz); [by eapply Hp|].
        assert (a' = a /\ dt' = dt) as [-> ->] by (split; congruence). cbn [load_axis] in Em, Hr.
        destruct (decide (lsize_of a = 0)); [congruence|]. destruct E3 as [-> | ->]; [done|]. congruence.
      - apply lookup_ge_None in El. apply lookup_ge_None. lia. }
    destruct y as [x label]. apply make_some_valid; [apply Hv|]. done.
  - right. f_equal. eapply mapR_err_all; [|exact Em]. intros i e' Hi He. cbv beta in He. apply elem_of_seq in Hi.
    destruct (llabel y !! i) as [l|] eqn:El; [|apply lookup_ge_None in El; lia].
    destruct (Hl i l El) as [En|(a & dt & o & E1 & E2 & E3)]; [rewrite En in He; cbn in He; congruence|]. rewrite E2 in He. cbn [of_opt mbind res_bind load_axis] in He.
    rewrite Forall_lookup in Hp. destruct (label_round_trip l) as (a' & dt' & Ha' & Hr & Hz); [by eapply Hp|].
    assert (a' = a /\ dt' = dt) as [-> ->] by (split; congruence). cbn [load_axis] in Hr. destruct (decide (lsize_of a = 0)); [done|].
    destruct E3 as [-> | ->]; cbn in He; [congruence|]. cbn in Hr. congruence.
Qed.
Lemma unfinished_bad_load y n l : valid y -> l ∈ llabel y -> list2array l = Err TypeError -> unfinished y n -> load_node n = Err KeyError.
Proof.
  intros Hv [i Hi]%elem_of_list_lookup Hb (b & ms & -> & Hnd & Hx & _ & Hl).
  assert (Hd : nd_ndim (lx y) = length (llabel y)) by (symmetry; by apply valid_ndim).
  unfold load_node. destruct (is_archived (NGroup b ms)) eqn:Ea; [|done]. exfalso.
  destruct b; [|done]. simpl in Ea. destruct Hx as [Hx|[_ Hx]]; rewrite Hx in Ea; [done|]. rewrite forallb_forall in Ea.
  assert (Hin : In i (seq 0 (nd_ndim (lx y)))) by (apply in_seq; apply lookup_lt_Some in Hi; lia). apply Ea in Hin.
  destruct (Hl i l Hi) as [En|(a & dt & o & E1 & _)]; [by rewrite En in Hin|congruence].
Qed.

(** * Saving *)

Lemma save_labels_ok ls : forall i0 ms, Forall plain_label ls -> (forall j, i0 <= j -> dict_get ms (str_nat j) = None) ->
  exists t ms', pfor (save_label []) (zip (seq i0 (length ls)) ls) (NGroup true ms) = (t, Ok ()) /\
  final (NGroup true ms) t = NGroup true ms' /\
  (forall k, (forall j, i0 <= j -> k <> str_nat j) -> dict_get ms' k = dict_get ms k) /\
  (forall j l, ls !! j = Some l -> exists a dt, list2array l = Ok (a, dt) /\ dict_get ms' (str_nat (i0 + j)) = Some (NLabel a (Some dt))).
Proof.
  induction ls as [|l ls IH]; intros i0 ms Hp Hf.
  { exists [], ms. split_and!; try done. }
  apply Forall_cons in Hp as [Hp Hps]. destruct (label_round_trip l Hp) as (a & dt & Ha & _).
  set (ms1 := dict_set (str_nat i0) (NLabel a None) ms). set (ms2 := dict_set (str_nat i0) (NLabel a (Some dt)) ms).
  assert (Hs : save_label [] (i0, l) (NGroup true ms) = ([NGroup true ms1; NGroup true ms2], Ok ())).
  { unfold save_label. cbn [fst snd]. rewrite Ha, pbind_lift_ok. cbn [fst snd]. unfold pbind, h5_alter at 1. simpl.
    rewrite (Hf i0) by lia. unfold h5_alter. simpl. rewrite dict_get_set, decide_True by done. simpl. by rewrite dict_set_set. }
  destruct (IH (S i0) ms2) as (t & ms' & Ht & Hfin & Ho & Hn).
  { done. }
  { intros j Hj. unfold ms2. rewrite dict_get_set, decide_False; [apply Hf; lia|]. intros ?%str_nat_inj. lia. }
  exists ([NGroup true ms1; NGroup true ms2] ++ t), ms'. simpl pfor. rewrite (pbind_ok _ _ _ _ _ Hs).
  change (final (NGroup true ms) [NGroup true ms1; NGroup true ms2]) with (NGroup true ms2). rewrite Ht. simpl snd. simpl fst.
  split_and!; [done| | |].
  - rewrite final_app. done.
  - intros k Hk. rewrite Ho by (intros; apply Hk; lia). unfold ms2. rewrite dict_get_set, decide_False; [done|]. apply Hk. lia.
  - intros [|j] l' Hj; simpl in Hj.
    + injection Hj as <-. exists a, dt. split; [done|]. rewrite Nat.add_0_r. rewrite Ho by (intros j Hj ?%str_nat_inj; lia).
      unfold ms2. by rewrite dict_get_set, decide_True.
    + rewrite <-Nat.add_succ_comm. by apply Hn.
Qed.
Lemma save_here_ok y : archivable y ->
  exists t, save_here y (NGroup false []) = (t, Ok ()) /\ finished y (final (NGroup false []) t).
Proof.
  intros (Hv & Hd & Hp). assert (Hnd : lndim y = length (llabel y)) by (symmetry; by apply valid_ndim).
  pose proof (save_here_unfinished y (NGroup false []) (unfinished_new y)) as Hu.
  pose proof (keeps_final _ _ _ (save_here_unfinished y) (unfinished_new y)) as Hfu. revert Hu Hfu. unfold save_here.
  rewrite decide_False by done. set (ms := [("x"%string, NX (lx y))]). intros _ Hfu.
  destruct (save_labels_ok (llabel y) 0 ms Hp) as (t & ms' & Ht & Hfin & Ho & Hn).
  { intros j _. simpl. rewrite decide_False; [done|]. apply str_nat_x. }
  rewrite <-Hnd in Ht.
  assert (Heq : (_ <- h5_alter RuntimeError set_larry [];; _ <- h5_alter RuntimeError (add_member "x"%string (NX (lx y))) [];;
     pfor (save_label []) (zip (seq 0 (lndim y)) (llabel y))) (NGroup false []) = ([NGroup true []; NGroup true ms] ++ t, Ok ())).
  { rewrite (pbind_ok _ _ _ [NGroup true []] ()) by done. change (final (NGroup false []) [NGroup true []]) with (NGroup true []).
    rewrite (pbind_ok _ _ _ [NGroup true ms] ()) by done. change (final (NGroup true []) [NGroup true ms]) with (NGroup true ms).
    by rewrite Ht. }
  rewrite Heq in Hfu |- *. eexists. split; [done|]. cbn [fst] in Hfu. split; [done|]. exists ms'. split_and!.
  - rewrite final_app. done.
  - rewrite Ho; [done|]. intros j _ E. symmetry in E. by apply str_nat_x in E.
  - done.
Qed.
Lemma save_labels_err ls : forall i0 ms, Exists (fun l => list2array l = Err TypeError) ls -> (forall j, i0 <= j -> dict_get ms (str_nat j) = None) ->
  (pfor (save_label []) (zip (seq i0 (length ls)) ls) (NGroup true ms)).2 = Err TypeError.
Proof.
  induction ls as [|l ls IH]; intros i0 ms Hp Hf; [by apply Exists_nil in Hp|]. simpl pfor.
  destruct (list2array l) as [[a dt]|e] eqn:Ha.
  - apply Exists_cons in Hp as [Hp|Hp]; [congruence|].
    set (ms1 := dict_set (str_nat i0) (NLabel a None) ms). set (ms2 := dict_set (str_nat i0) (NLabel a (Some dt)) ms).
    assert (Hs : save_label [] (i0, l) (NGroup true ms) = ([NGroup true ms1; NGroup true ms2], Ok ())).
    { unfold save_label. cbn [fst snd]. rewrite Ha, pbind_lift_ok. cbn [fst snd]. unfold pbind, h5_alter at 1. simpl.
      rewrite (Hf i0) by lia. unfold h5_alter. simpl. rewrite dict_get_set, decide_True by done. simpl. by rewrite dict_set_set. }
    rewrite (pbind_ok _ _ _ _ _ Hs). cbn [snd]. change (final (NGroup true ms) [NGroup true ms1; NGroup true ms2]) with (NGroup true ms2).
    apply IH; [done|]. intros j Hj. unfold ms2. rewrite dict_get_set, decide_False; [apply Hf; lia|]. intros ?%str_nat_inj. lia.
  - apply list2array_err in Ha as He. subst e. unfold save_label at 1. unfold pbind at 1. unfold pbind at 1. cbn [fst snd]. rewrite Ha. done.
Qed.
Lemma save_here_err y l : valid y -> l ∈ llabel y -> list2array l = Err TypeError -> (save_here y (NGroup false [])).2 = Err TypeError.
Proof.
  intros Hv Hl He. assert (Hnd : lndim y = length (llabel y)) by (symmetry; by apply valid_ndim). unfold save_here.
  rewrite (pbind_ok _ _ _ [NGroup true []] ()) by done. change (final (NGroup false []) [NGroup true []]) with (NGroup true []).
  cbn [snd]. case_decide as Hd; [done|]. rewrite (pbind_ok _ _ _ [NGroup true [("x"%string, NX (lx y))]] ()) by done.
  cbn [snd]. rewrite Hnd. apply save_labels_err; [|].
  - apply Exists_exists. eauto.
  - intros j _. simpl. rewrite decide_False; [done|]. apply str_nat_x.
Qed.

(** * Assignment *)

Lemma setitem_flat a ms k y : flat k -> NoDup ms.*1 ->
  io_setitem (Some k) (Some y) (NGroup a ms) =
  match dict_get ms k with
  | Some c =>
      if is_archived c then
        let p := save (Some y) (Some k) (NGroup a (dict_del k ms)) in (NGroup a (dict_del k ms) :: p.1, p.2)
      else ([], Err KeyError)
  | None => save (Some y) (Some k) (NGroup a ms)
  end.
Proof.
  intros Hk Hnd. unfold io_setitem. rewrite pbind_get. destruct (dict_get ms k) as [c|] eqn:Ek.
  - assert (k ∈ ms.*1) by (apply dict_get_Some_in; eauto). rewrite decide_True by done.
    unfold h5_delete. rewrite path_of_flat by done. cbn [last length take Nat.sub].
    destruct (is_archived c) eqn:Ec.
    + assert (Hd : (f <- pget;; n <- plift (of_opt KeyError (h5_get f k));; (if is_archived n then h5_alter KeyError (del_member k) [] else praise KeyError)) (NGroup a ms)
        = ([NGroup a (dict_del k ms)], Ok ())).
      { rewrite pbind_get, h5_get_flat by done. simpl. rewrite Ek. simpl. rewrite pbind_lift_ok, Ec. done. }
      rewrite (pbind_ok _ _ _ _ _ Hd). done.
    + assert (Hd : (f <- pget;; n <- plift (of_opt KeyError (h5_get f k));; (if is_archived n then h5_alter KeyError (del_member k) [] else praise KeyError)) (NGroup a ms)
        = ([], Err KeyError)).
      { rewrite pbind_get, h5_get_flat by done. simpl. rewrite Ek. simpl. rewrite pbind_lift_ok, Ec. done. }
      by rewrite (pbind_err _ _ _ _ _ Hd).
  - apply dict_get_None in Ek. rewrite decide_False by done. by rewrite pbind_ret.
Qed.
(** The states during an assignment. *)
Lemma setitem_states a ms k y f' : flat k -> NoDup ms.*1 -> f' ∈ (io_setitem (Some k) (Some y) (NGroup a ms)).1 ->
  exists ms', f' = NGroup a ms' /\ NoDup ms'.*1 /\ (forall k', k' <> k -> dict_get ms' k' = dict_get ms k') /\
  (dict_get ms' k = None \/ exists c, dict_get ms' k = Some c /\ unfinished y c).
Proof.
  intros Hk Hnd. rewrite setitem_flat by done.
  assert (Hs : forall ms1, NoDup ms1.*1 -> dict_get ms1 k = None -> (forall k', k' <> k -> dict_get ms1 k' = dict_get ms k') ->
    f' ∈ (save (Some y) (Some k) (NGroup a ms1)).1 ->
    exists ms', f' = NGroup a ms' /\ NoDup ms'.*1 /\ (forall k', k' <> k -> dict_get ms' k' = dict_get ms k') /\
    (dict_get ms' k = None \/ exists c, dict_get ms' k = Some c /\ unfinished y c)).
  { intros ms1 Hn1 H1 Ho. rewrite save_flat by done. cbn [fst]. intros (c & -> & Hc)%elem_of_list_fmap.
    exists (dict_set k c ms1). split_and!; [done|by apply dict_set_nodup| |].
    - intros k' Hk'. by rewrite dict_get_set, decide_False, Ho.
    - right. exists c. rewrite dict_get_set, decide_True by done. split; [done|].
      apply elem_of_cons in Hc as [-> |Hc]; [apply unfinished_new|].
      pose proof (save_here_unfinished y (NGroup false []) (unfinished_new y)) as HF. by eapply Forall_forall in HF. }
  destruct (dict_get ms k) as [c|] eqn:Ek.
  - destruct (is_archived c); cbn [fst]; [|by intros ?%elem_of_nil]. intros [-> |Hf]%elem_of_cons.
    + exists (dict_del k ms). split_and!; [done|by apply dict_del_nodup| |].
      * intros k' Hk'. by rewrite dict_get_del, decide_False.
      * left. by rewrite dict_get_del, decide_True.
    + apply Hs in Hf; [done|by apply dict_del_nodup| |].
      * by rewrite dict_get_del, decide_True.
      * intros k' Hk'. by rewrite dict_get_del, decide_False.
  - apply Hs; done.
Qed.

(** * Archives *)

Definition archive (f : node) (d : ldict) : Prop :=
  exists ms, f = NGroup false ms /\ NoDup ms.*1 /\
  (forall k c, dict_get ms k = Some c -> flat k /\ exists y, d k = Some y /\ archivable y /\ finished y c) /\
  (forall k y, d k = Some y -> k ∈ ms.*1).
Lemma archive_empty : archive empty_file (fun _ => None).
Proof. exists []. split_and!; [done|constructor|done|done]. Qed.
Lemma archive_ext f d d' : (forall k, d k = d' k) -> archive f d -> archive f d'.
Proof.
  intros H (ms & -> & Hnd & H1 & H2). exists ms. split_and!; [done|done| |].
  - intros k c Hk. apply H1 in Hk. by rewrite <-H.
  - intros k y. rewrite <-H. apply H2.
Qed.
Lemma archive_put f d k y : archive f d -> flat k -> archivable y ->
  exists t, io_setitem (Some k) (Some y) f = (t, Ok ()) /\ archive (final f t) (fun k' => if decide (k' = k) then Some y else d k').
Proof.
  intros (ms & -> & Hnd & H1 & H2) Hk Hy. rewrite setitem_flat by done. destruct (save_here_ok y Hy) as (t0 & Ht0 & Hf0).
  assert (Hs : forall ms1, NoDup ms1.*1 -> dict_get ms1 k = None -> (forall k', k' <> k -> dict_get ms1 k' = dict_get ms k') ->
    exists t, save (Some y) (Some k) (NGroup false ms1) = (t, Ok ()) /\
    archive (final (NGroup false ms1) t) (fun k' => if decide (k' = k) then Some y else d k')).
  { intros ms1 Hn1 E1 Ho. rewrite save_flat by done. rewrite Ht0. cbn [fst snd]. eexists. split; [done|].
    set (F := fun c => NGroup false (dict_set k c ms1)).
    assert (final (NGroup false ms1) (F <$> NGroup false [] :: t0) = F (final (NGroup false []) t0)) as ->.
    { change (F <$> NGroup false [] :: t0) with ([F (NGroup false [])] ++ (F <$> t0)). rewrite final_app.
      change (final (NGroup false ms1) [F (NGroup false [])]) with (F (NGroup false [])). apply final_fmap. }
    exists (dict_set k (final (NGroup false []) t0) ms1). split_and!; [done|by apply dict_set_nodup| |].
    - intros k' c'. rewrite dict_get_set. case_decide as Hkk; [|rewrite Ho by done; apply H1].
      intros [= <-]. subst k'. split; [done|]. eauto.
    - intros k' y'. rewrite dict_get_Some_in, dict_get_set. case_decide; [eauto|]. intros HH%H2.
      apply dict_get_Some_in in HH. by rewrite Ho. }
  destruct (dict_get ms k) as [c|] eqn:Ek; [|by apply Hs].
  destruct (H1 k c Ek) as (_ & y0 & _ & Hy0 & Hc). destruct (finished_load y0 c Hy0 Hc) as (-> & _). 
  destruct (Hs (dict_del k ms)) as (t & Ht & Ha).
  { by apply dict_del_nodup. }
  { by rewrite dict_get_del, decide_True. }
  { intros k' Hk'. by rewrite dict_get_del, decide_False. }
  rewrite Ht. eexists. split; [done|]. cbn [fst]. change (NGroup false (dict_del k ms) :: t) with ([NGroup false (dict_del k ms)] ++ t).
  by rewrite final_app.
Qed.
Lemma archive_del f d k y : archive f d -> flat k -> d k = Some y ->
  exists t, io_delitem (Some k) f = (t, Ok ()) /\ archive (final f t) (fun k' => if decide (k' = k) then None else d k').
Proof.
  intros (ms & -> & Hnd & H1 & H2) Hk Hy. apply H2 in Hy as Hin. apply dict_get_Some_in in Hin as [c Ek].
  destruct (H1 k c Ek) as (_ & y0 & _ & Hy0 & Hc). destruct (finished_load y0 c Hy0 Hc) as (Ec & _).
  exists [NGroup false (dict_del k ms)]. split.
  - unfold io_delitem, h5_delete. rewrite path_of_flat by done. cbn [last length take Nat.sub].
    rewrite pbind_get, h5_get_flat by done. simpl. rewrite Ek. simpl. rewrite pbind_lift_ok, Ec. done.
  - exists (dict_del k ms). split_and!; [done|by apply dict_del_nodup| |].
    + intros k' c'. rewrite dict_get_del. case_decide; [done|]. apply H1.
    + intros k' y'. case_decide as Hkk; [done|]. intros HH%H2. apply dict_get_Some_in in HH as [c' HH]. apply dict_get_Some_in.
      rewrite dict_get_del, decide_False by done. eauto.
Qed.
Lemma archive_get f d k : archive f d -> flat k ->
  load f (Some k) = of_opt KeyError (d k) /\ io_getitem f (Some k) = of_opt KeyError (d k) /\
  (d k = None -> io_delitem (Some k) f = ([], Err KeyError)).
Proof.
  intros (ms & -> & Hnd & H1 & H2) Hk. rewrite load_alt. unfold io_getitem, io_delitem, h5_delete. rewrite pbind_get, !h5_get_flat by done.
  simpl. destruct (dict_get ms k) as [c|] eqn:Ek; simpl.
  - destruct (H1 k c Ek) as (_ & y & -> & Hy & Hc). destruct (finished_load y c Hy Hc) as (E1 & E2 & E3). simpl. split_and!; [done| |done].
    rewrite E1, E2. cbn [mbind res_bind]. destruct Hc as (_ & ms' & -> & Hx & _). rewrite Hx. by destruct y.
  - destruct (d k) as [y|] eqn:Ed; [|done]. apply H2 in Ed. apply dict_get_None in Ek. done.
Qed.
Lemma visit_unfinished y n pre : unfinished y n -> visit pre n = [].
Proof.
  intros (b & ms & -> & Hnd & _ & Hg & _). simpl. induction ms as [|[k c] ms IH]; [done|]. cbn [map concat snd fst].
  csimpl in Hnd. apply NoDup_cons in Hnd as [Hk Hnd].
  assert (match c with NGroup _ _ => False | _ => True end) as Hc by (apply (Hg k); simpl; by rewrite decide_True).
  rewrite IH; [|done|]. 
  - by destruct c.
  - intros k' c' Hk'. apply (Hg k'). simpl. rewrite decide_False; [done|]. intros ->. apply Hk. apply dict_get_Some_in. eauto.
Qed.
Lemma archive_keys f d : archive f d -> NoDup (io_keys f) /\ (forall k, k ∈ io_keys f -> flat k) /\ (forall k, k ∈ io_keys f <-> is_Some (d k)).
Proof.
  intros (ms & -> & Hnd & H1 & H2). assert (io_keys (NGroup false ms) = ms.*1) as ->.
  { unfold io_keys, archive_directory. cbn [visit]. revert Hnd H1. clear H2. 
    induction ms as [|[k c] ms IH]; intros Hnd H1; [done|]. csimpl in Hnd. apply NoDup_cons in Hnd as [Hk Hnd].
    cbn [map concat snd fst]. csimpl. destruct (H1 k c) as (_ & y & _ & Hy & Hc); [simpl; by rewrite decide_True|].
    destruct (finished_load y c Hy Hc) as (-> & _). destruct Hc as [Hu _]. rewrite (visit_unfinished _ _ _ Hu). simpl. f_equal.
    apply IH; [done|]. intros k' c' Hk'. apply H1. simpl. rewrite decide_False; [done|]. intros ->. apply Hk. apply dict_get_Some_in. eauto. }
  split_and!; [done| |].
  - intros k [c Hk]%dict_get_Some_in. by apply H1 in Hk as [? _].
  - intros k. split.
    + intros [c Hk]%dict_get_Some_in. apply H1 in Hk as (_ & y & Hy & _). eauto.
    + intros [y Hy]. eauto.
Qed.
Lemma archive_clear_keys ks : forall f d, archive f d -> NoDup ks -> (forall k, k ∈ ks -> flat k /\ is_Some (d k)) ->
  exists t, pfor (fun k => io_delitem (Some k)) ks f = (t, Ok ()) /\ archive (final f t) (fun k => if decide (k ∈ ks) then None else d k).
Proof.
  induction ks as [|k ks IH]; intros f d Ha Hnd Hks.
  { exists []. split; [done|]. eapply archive_ext; [|exact Ha]. intros k. by rewrite decide_False by apply not_elem_of_nil. }
  apply NoDup_cons in Hnd as [Hk Hnd]. destruct (Hks k) as [Hfl [y Hy]]; [by left|].
  destruct (archive_del f d k y Ha Hfl Hy) as (t1 & Ht1 & Ha1).
  destruct (IH _ _ Ha1 Hnd) as (t2 & Ht2 & Ha2).
  { intros k' Hk'. rewrite decide_False by (by intros ->). apply Hks. by right. }
  exists (t1 ++ t2). split.
  - cbn [pfor]. rewrite (pbind_ok _ _ _ _ _ Ht1). cbv beta. rewrite Ht2. done.
  - rewrite final_app. eapply archive_ext; [|exact Ha2]. intros k'. simpl.
    destruct (decide (k' ∈ ks)), (decide (k' ∈ k :: ks)) as [|Hn]; try done.
    + exfalso. apply Hn. by right.
    + rewrite decide_True; [done|]. apply elem_of_cons in e as [?|?]; done.
    + rewrite decide_False; [done|]. intros ->. apply Hn. by left.
Qed.
Lemma archive_clear f d : archive f d -> exists t, io_clear f = (t, Ok ()) /\ archive (final f t) (fun _ => None).
Proof.
  intros Ha. destruct (archive_keys f d Ha) as (Hnd & Hfl & Hk).
  destruct (archive_clear_keys (io_keys f) f d Ha Hnd) as (t & Ht & Ha'); [intros k Hin; split; [auto|by apply Hk]|].
  exists t. split; [unfold io_clear; by rewrite pbind_get|]. eapply archive_ext; [|exact Ha']. intros k. simpl.
  case_decide as Hin; [done|]. rewrite Hk in Hin. by apply eq_None_not_Some.
Qed.
Lemma archive_step f d o : archive f d -> op_ok o ->
  exists t, io_op o f = (t, (dict_step d o).2) /\ archive (final f t) (dict_step d o).1.
Proof.
  intros Ha Ho. destruct o as [k y|k|]; simpl in *.
  - destruct Ho. by apply archive_put.
  - destruct (d k) as [y|] eqn:Ed; [by eapply archive_del|]. exists []. split; [by apply (archive_get f d k Ha Ho)|done].
  - by eapply archive_clear.
Qed.
Lemma archive_run os : forall f d, archive f d -> Forall op_ok os ->
  (io_run f os).2 = (dict_run d os).2 /\ archive (io_run f os).1 (dict_run d os).1.
Proof.
  induction os as [|o os IH]; intros f d Ha Hos; [done|]. apply Forall_cons in Hos as [Ho Hos].
  destruct (archive_step f d o Ha Ho) as (t & Ht & Ha'). simpl. unfold prun. rewrite Ht. destruct (dict_step d o) as [d' r]. simpl in *.
  destruct (IH _ _ Ha' Hos) as [E1 E2]. destruct (io_run (final f t) os), (dict_run d' os). simpl in *. by rewrite E1.
Qed.

Lemma save_final a ms y k : flat k -> dict_get ms k = None ->
  exists c, final (NGroup a ms) (save (Some y) (Some k) (NGroup a ms)).1 = NGroup a (dict_set k c ms) /\ unfinished y c /\
  (save (Some y) (Some k) (NGroup a ms)).2 = (save_here y (NGroup false [])).2.
Proof.
  intros Hk Hms. rewrite save_flat by done. cbn [fst snd]. exists (final (NGroup false []) (save_here y (NGroup false [])).1). split_and!; [| |done].
  - set (F := fun c => NGroup a (dict_set k c ms)). change (F <$> NGroup false [] :: ?t) with ([F (NGroup false [])] ++ (F <$> t)).
    rewrite final_app. change (final (NGroup a ms) [F (NGroup false [])]) with (F (NGroup false [])). exact (final_fmap F _ _).
  - apply keeps_final; [apply save_here_unfinished|apply unfinished_new].
Qed.
(** A label that cannot be stored. *)
Lemma setitem_bad f d k y l : archive f d -> flat k -> valid y -> l ∈ llabel y -> list2array l = Err TypeError ->
  exists t, io_setitem (Some k) (Some y) f = (t, Err TypeError) /\
  load (final f t) (Some k) = Err KeyError /\
  (forall z, io_setitem (Some k) (Some z) (final f t) = ([], Err KeyError)) /\
  io_delitem (Some k) (final f t) = ([], Err KeyError).
Proof.
  intros (ms & -> & Hnd & H1 & H2) Hk Hv Hl Hb.
  assert (Hs : forall ms1, NoDup ms1.*1 -> dict_get ms1 k = None ->
    exists t, save (Some y) (Some k) (NGroup false ms1) = (t, Err TypeError) /\
    load (final (NGroup false ms1) t) (Some k) = Err KeyError /\
    (forall z, io_setitem (Some k) (Some z) (final (NGroup false ms1) t) = ([], Err KeyError)) /\
    io_delitem (Some k) (final (NGroup false ms1) t) = ([], Err KeyError)).
  { intros ms1 Hn1 E1. destruct (save_final false ms1 y k Hk E1) as (c & Hf & Hu & Hr).
    rewrite (save_here_err y l Hv Hl Hb) in Hr. destruct (save (Some y) (Some k) (NGroup false ms1)) as [t r]. cbn [fst snd] in *. subst r.
    exists t. split; [done|]. rewrite Hf. pose proof (unfinished_bad_load y c l Hv Hl Hb Hu) as Hload.
    assert (Hna : is_archived c = false).
    { destruct (is_archived c) eqn:Ec; [|done]. exfalso. destruct Hu as (b & msc & -> & _ & Hx & _ & Hls). 
      assert (Hd : nd_ndim (lx y) = length (llabel y)) by (symmetry; by apply valid_ndim).
      simpl in Ec. destruct b; [|done]. destruct Hx as [Hx|[_ Hx]]; rewrite Hx in Ec; [done|]. rewrite forallb_forall in Ec.
      apply elem_of_list_lookup in Hl as [i Hi].
      assert (Hin : In i (seq 0 (nd_ndim (lx y)))) by (apply in_seq; apply lookup_lt_Some in Hi; lia). apply Ec in Hin.
      destruct (Hls i l Hi) as [En|(? & ? & ? & E & _)]; [by rewrite En in Hin|congruence]. }
    split_and!.
    - rewrite load_alt, h5_get_flat by done. simpl. rewrite dict_get_set, decide_True by done. done.
    - intros z. rewrite setitem_flat; [|done|by apply dict_set_nodup]. by rewrite dict_get_set, decide_True, Hna.
    - unfold io_delitem, h5_delete. rewrite pbind_get, h5_get_flat by done. simpl. rewrite dict_get_set, decide_True by done. simpl.
      by rewrite pbind_lift_ok, Hna. }
  rewrite setitem_flat by done. destruct (dict_get ms k) as [c|] eqn:Ek; [|by apply Hs].
  destruct (H1 k c Ek) as (_ & y0 & _ & Hy0 & Hc). destruct (finished_load y0 c Hy0 Hc) as (-> & _).
  destruct (Hs (dict_del k ms)) as (t & Ht & Ha).
  { by apply dict_del_nodup. }
  { by rewrite dict_get_del, decide_True. }
  rewrite Ht. eexists. split; [done|]. cbn [fst]. change (NGroup false (dict_del k ms) :: t) with ([NGroup false (dict_del k ms)] ++ t).
  by rewrite final_app.
Qed.
Lemma archive_root f d : archive f d -> exists ms, f = NGroup false ms /\ NoDup ms.*1.
Proof. intros (ms & -> & Hnd & _). eauto. Qed.
(** Interruptions. *)
Lemma setitem_interrupted f d k y f' : archive f d -> flat k -> archivable y -> f' ∈ (io_setitem (Some k) (Some y) f).1 ->
  load f' (Some k) = Ok y \/ load f' (Some k) = Err KeyError.
Proof.
  intros Ha Hk Hy Hf. destruct (archive_root f d Ha) as (ms & -> & Hnd).
  destruct (setitem_states false ms k y f' Hk Hnd Hf) as (ms' & -> & _ & _ & Hd).
  rewrite load_alt, h5_get_flat by done. simpl. destruct Hd as [-> |(c & -> & Hu)]; [by right|]. simpl. by apply unfinished_load.
Qed.
Lemma setitem_others a ms k y f' : flat k -> NoDup ms.*1 -> f' ∈ (io_setitem (Some k) (Some y) (NGroup a ms)).1 ->
  forall k', flat k' -> k' <> k -> load f' (Some k') = load (NGroup a ms) (Some k').
Proof.
  intros Hk Hnd Hf k' Hk' Hne. destruct (setitem_states a ms k y f' Hk Hnd Hf) as (ms' & -> & _ & Ho & _).
  rewrite !load_alt, !h5_get_flat by done. simpl. by rewrite Ho.
Qed.
Lemma setitem_window f d k y old : archive f d -> flat k -> d k = Some old ->
  exists f', f' ∈ (io_setitem (Some k) (Some y) f).1 /\ load f' (Some k) = Err KeyError.
Proof.
  intros (ms & -> & Hnd & H1 & H2) Hk Hd. rewrite setitem_flat by done. apply H2 in Hd. apply dict_get_Some_in in Hd as [c Ek]. rewrite Ek.
  destruct (H1 k c Ek) as (_ & y0 & _ & Hy0 & Hc). destruct (finished_load y0 c Hy0 Hc) as (-> & _).
  exists (NGroup false (dict_del k ms)). cbn [fst]. split; [by left|]. rewrite load_alt, h5_get_flat by done. simpl.
  by rewrite dict_get_del, decide_True.
Qed.
Lemma save_load y k : flat k -> archivable y ->
  exists f, prun (save (Some y) (Some k)) empty_file = (f, Ok ()) /\ load f (Some k) = Ok y.
Proof.
  intros Hk Hy. destruct (archive_put empty_file (fun _ => None) k y archive_empty Hk Hy) as (t & Ht & Ha).
  change empty_file with (NGroup false []) in Ht at 1. rewrite setitem_flat in Ht by (done || constructor). simpl dict_get in Ht. unfold prun. change (NGroup false []) with empty_file in Ht.
  rewrite Ht. eexists. split; [done|]. destruct (archive_get _ _ k Ha Hk) as (-> & _). by rewrite decide_True.
Qed.
Lemma save_mixed y k l : flat k -> valid y -> l ∈ llabel y -> mixed_label l ->
  (prun (save (Some y) (Some k)) empty_file).2 = Err TypeError.
Proof.
  intros Hk Hv Hl Hm. destruct (save_final false [] y k Hk eq_refl) as (c & Hf & Hu & Hr).
  rewrite (save_here_err y l Hv Hl (list2array_mixed l Hm)) in Hr. unfold prun, empty_file. by destruct (save _ _ _).
Qed.

(** * repack *)

Lemma string_app_length s1 s2 : String.length (s1 ++ s2) = String.length s1 + String.length s2.
Proof. induction s1; simpl; auto. Qed.
Lemma string_app_inj s s1 s2 : (s ++ s1)%string = (s ++ s2)%string -> s1 = s2.
Proof. induction s; simpl; [done|]. intros [= ?]. auto. Qed.
Lemma string_app_ne s c t : (s ++ String c t)%string <> s.
Proof. intros E. apply (f_equal String.length) in E. rewrite string_app_length in E. simpl in E. lia. Qed.

Lemma dict_set_new {V} k (v : V) (d : pydict string V) : k ∉ d.*1 -> dict_set k v d = d ++ [(k, v)].
Proof.
  induction d as [|[k0 v0] d IH]; [done|]. csimpl. rewrite not_elem_of_cons. intros [? ?]. rewrite decide_False by done. by rewrite IH.
Qed.
Lemma copy_all n ms : forall pre (s : fs), s !! n = Some (NGroup false pre) -> NoDup (pre ++ ms).*1 ->
  exists t, pfor (fs_copy n) ms s = (t, Ok ()) /\ final s t = <[n := NGroup false (pre ++ ms)]> s /\
  Forall (fun s' => exists g, s' = <[n := g]> s) t.
Proof.
  induction ms as [|[k c] ms IH]; intros pre s Hs Hnd.
  { exists []. split_and!; [done| |constructor]. rewrite app_nil_r. change (final s []) with s. symmetry. by apply insert_id. }
  assert (Hk : k ∉ pre.*1).
  { rewrite fmap_app in Hnd. apply NoDup_app in Hnd as (_ & Hd & _). intros Hin. apply (Hd k Hin). csimpl. by left. }
  set (s1 := <[n := NGroup false (pre ++ [(k, c)])]> s).
  assert (Hc : fs_copy n (k, c) s = ([s1], Ok ())).
  { unfold fs_copy. rewrite Hs. simpl. rewrite (proj2 (dict_get_None _ _)) by done. by rewrite dict_set_new. }
  destruct (IH (pre ++ [(k, c)]) s1) as (t & Ht & Hfin & Hall).
  { apply lookup_insert. }
  { by rewrite <-app_assoc. }
  exists ([s1] ++ t). cbn [pfor]. rewrite (pbind_ok _ _ _ _ _ Hc). cbv beta. change (final s [s1]) with s1. rewrite Ht. split_and!; [done| |].
  - rewrite final_app. change (final s [s1]) with s1. rewrite Hfin. unfold s1. rewrite insert_insert, <-app_assoc. done.
  - constructor; [by eexists|]. eapply Forall_impl; [exact Hall|]. intros s' [g ->]. exists g. unfold s1. by rewrite insert_insert.
Qed.
Lemma repack_spec s name r1 r2 ms :
  let name2 := (name ++ "_repack_tmp_" ++ r1)%string in
  let tmp := (name ++ "_repack_rename_tmp_" ++ r2)%string in
  s !! name = Some (NGroup false ms) -> NoDup ms.*1 -> s !! name2 = None -> s !! tmp = None ->
  exists t, repack r1 r2 name s = (t, Ok ()) /\ final s t = s /\
  (forall s', s' ∈ t -> (s' !! name = Some (NGroup false ms) \/ s' !! tmp = Some (NGroup false ms)) /\
     (forall n, n <> name -> n <> name2 -> n <> tmp -> s' !! n = s !! n)) /\
  (exists s', s' ∈ t /\ s' !! name = None).
Proof.
  intros name2 tmp Hs Hnd H2 H3.
  assert (Hn2 : name2 <> name) by apply string_app_ne. assert (Htmp : tmp <> name) by apply string_app_ne.
  assert (H23 : name2 <> tmp) by (intros E%string_app_inj; done).
  set (f := NGroup false ms) in *. set (s1 := <[name2 := empty_file]> s).
  destruct (copy_all name2 ms [] s1) as (t & Ht & Hfin & Hall); [apply lookup_insert|done|]. rewrite app_nil_l in Hfin.
  assert (Hfin' : final s1 t = <[name2 := f]> s) by (rewrite Hfin; unfold s1; by rewrite insert_insert).
  set (s2 := <[name2 := f]> s) in *. set (s3 := <[tmp := f]> (delete name s2)). set (s4 := <[name := f]> (delete name2 s3)).
  assert (Hs4 : delete tmp s4 = s).
  { unfold s4, s3, s2. apply map_eq. intros n. destruct (decide (n = tmp)) as [-> |]; [by rewrite lookup_delete|].
    rewrite lookup_delete_ne by done. destruct (decide (n = name)) as [-> |]; [by rewrite lookup_insert|]. rewrite lookup_insert_ne by done.
    destruct (decide (n = name2)) as [-> |]; [by rewrite lookup_delete|]. rewrite lookup_delete_ne, lookup_insert_ne, lookup_delete_ne, lookup_insert_ne by done. done. }
  exists ([s1] ++ t ++ [s3; s4; delete tmp s4]). split_and!.
  - assert (E1 : fs_open name2 s = ([s1], Ok empty_file)) by (unfold fs_open; by rewrite H2).
    assert (E3 : fs_rename name tmp s2 = ([s3], Ok ())) by (unfold fs_rename, s2; rewrite lookup_insert_ne by done; by rewrite Hs).
    assert (E4 : fs_rename name2 name s3 = ([s4], Ok ())).
    { unfold fs_rename, s3, s2. rewrite lookup_insert_ne, lookup_delete_ne, lookup_insert by done. done. }
    assert (E5 : fs_remove tmp s4 = ([delete tmp s4], Ok ())).
    { unfold fs_remove, s4, s3. rewrite lookup_insert_ne, lookup_delete_ne, lookup_insert by done. done. }
    assert (T4 : (_ <- fs_rename name2 name;; fs_remove tmp) s3 = ([s4; delete tmp s4], Ok ())).
    { rewrite (pbind_ok _ _ _ _ _ E4). change (final s3 [s4]) with s4. by rewrite E5. }
    assert (T3 : (_ <- fs_rename name tmp;; _ <- fs_rename name2 name;; fs_remove tmp) s2 = ([s3; s4; delete tmp s4], Ok ())).
    { rewrite (pbind_ok _ _ _ _ _ E3). change (final s2 [s3]) with s3. by rewrite T4. }
    assert (T2 : (_ <- match f with NGroup _ ms => pfor (fs_copy name2) ms | _ => praise OSError end;;
      _ <- fs_rename name tmp;; _ <- fs_rename name2 name;; fs_remove tmp) s1 = (t ++ [s3; s4; delete tmp s4], Ok ())).
    { unfold f at 1. rewrite (pbind_ok _ _ _ _ _ Ht). by rewrite Hfin', T3. }
    unfold repack. rewrite (pbind_ok _ _ _ [] f) by (unfold fs_open; by rewrite Hs). rewrite app_nil_l.
    change (final s []) with s. cbv beta zeta. fold name2 tmp. rewrite (pbind_ok _ _ _ _ _ E1).
    change (final s [s1]) with s1. by rewrite T2.
  - rewrite app_assoc, final_app. exact Hs4.
  - intros s' Hs'. rewrite !elem_of_app in Hs'. destruct Hs' as [Hs'|[Hs'|Hs']].
    + apply elem_of_list_singleton in Hs' as ->. unfold s1. split.
      * left. by rewrite lookup_insert_ne.
      * intros n ? ? ?. by rewrite lookup_insert_ne.
    + eapply Forall_forall in Hall; [|exact Hs']. destruct Hall as [g ->]. unfold s1. rewrite insert_insert. split.
      * left. by rewrite lookup_insert_ne.
      * intros n ? ? ?. by rewrite lookup_insert_ne.
    + rewrite !elem_of_cons, elem_of_nil in Hs'. destruct Hs' as [-> |[-> |[-> |[]]]].
      * unfold s3, s2. split; [right; apply lookup_insert|]. intros n ? ? ?. rewrite lookup_insert_ne, lookup_delete_ne, lookup_insert_ne by done. done.
      * unfold s4, s3, s2. split; [left; apply lookup_insert|]. intros n ? ? ?.
        rewrite lookup_insert_ne, lookup_delete_ne, lookup_insert_ne, lookup_delete_ne, lookup_insert_ne by done. done.
      * rewrite Hs4. auto.
  - exists s3. split; [rewrite !elem_of_app; right; right; by left|]. unfold s3. rewrite lookup_insert_ne by done. apply lookup_delete.
Qed.

(** * The statements for reachable archives *)

Lemma archive_dictionary os : Forall op_ok os ->
  let f := (io_run empty_file os).1 in
  let d := (dict_run (fun _ => None) os).1 in
  (io_run empty_file os).2 = (dict_run (fun _ => None) os).2 /\
  NoDup (io_keys f) /\ (forall k, k ∈ io_keys f <-> is_Some (d k)) /\
  (forall k, flat k -> load f (Some k) = of_opt KeyError (d k) /\ io_getitem f (Some k) = of_opt KeyError (d k) /\
     (io_contains f k = true <-> is_Some (d k))) /\
  (exists ys, io_values f = Ok ys /\ Forall2 (fun k y => d k = Some y) (io_keys f) ys /\ io_len f = length ys).
Proof.
  intros Hos f d. destruct (archive_run os empty_file (fun _ => None) archive_empty Hos) as [H1 Ha]. fold f d in Ha.
  destruct (archive_keys f d Ha) as (Hnd & Hfl & Hk). split_and!; [done|done|done| |].
  - intros k Hkf. destruct (archive_get f d k Ha Hkf) as (E1 & E2 & _). split_and!; [done|done|].
    unfold io_contains. by rewrite bool_decide_eq_true.
  - unfold io_values, io_len. destruct (mapR_total (fun k => load f (Some k)) (io_keys f)) as [ys Hys].
    { intros k Hin. destruct (archive_get f d k Ha (Hfl k Hin)) as (-> & _). apply Hk in Hin as [y ->]. by eexists. }
    exists ys. rewrite Hys. split_and!; [done| |by apply mapR_length in Hys].
    apply mapR_ok in Hys. eapply Forall2_impl; [|intros k y HH; exact HH]. clear -Hys Ha Hfl.
    assert (Hall : Forall flat (io_keys f)) by (by apply Forall_forall). revert Hall. clear Hfl.
    induction Hys as [|k y ks ys Hky Hys IH]; intros [Hf Hfs]%Forall_cons || (intros; constructor).
    constructor; [|auto]. destruct (archive_get f d k Ha Hf) as (E & _). rewrite E in Hky. by apply of_opt_ok in Hky.
Qed.
Lemma archive_type_error f key value :
  io_setitem None value f = ([], Err TypeError) /\ io_setitem key None f = ([], Err TypeError) /\
  io_delitem None f = ([], Err TypeError) /\ load f None = Err TypeError.
Proof. split_and!; try done. by destruct key. Qed.
Lemma label_round_trip2 l : plain_label l ->
  exists a dt, list2array l = Ok (a, dt) /\ load_axis (NLabel a (Some dt)) = Ok l.
Proof. intros (a & dt & ? & ? & _)%label_round_trip. eauto. Qed.
Lemma setitem_crash os k y f' : Forall op_ok os -> flat k -> archivable y ->
  let f := (io_run empty_file os).1 in
  f' ∈ (io_setitem (Some k) (Some y) f).1 ->
  load f' (Some k) = Ok y \/ load f' (Some k) = load f (Some k) \/ load f' (Some k) = Err KeyError.
Proof.
  intros Hos Hk Hy f Hf. destruct (archive_run os empty_file (fun _ => None) archive_empty Hos) as [_ Ha].
  destruct (setitem_interrupted _ _ k y f' Ha Hk Hy Hf); auto.
Qed.
Lemma setitem_crash_window os k y old : Forall op_ok os -> flat k ->
  let f := (io_run empty_file os).1 in
  load f (Some k) = Ok old ->
  exists f', f' ∈ (io_setitem (Some k) (Some y) f).1 /\ load f' (Some k) = Err KeyError.
Proof.
  intros Hos Hk f Hf. destruct (archive_run os empty_file (fun _ => None) archive_empty Hos) as [_ Ha]. fold f in Ha.
  destruct (archive_get _ _ k Ha Hk) as (E & _). rewrite Hf in E. symmetry in E. apply of_opt_ok in E.
  by eapply setitem_window.
Qed.
Lemma setitem_failure os k y l : Forall op_ok os -> flat k -> valid y -> l ∈ llabel y -> mixed_label l ->
  let f := (io_run empty_file os).1 in
  let f' := (prun (io_setitem (Some k) (Some y)) f).1 in
  (prun (io_setitem (Some k) (Some y)) f).2 = Err TypeError /\
  load f' (Some k) = Err KeyError /\
  (forall z, io_setitem (Some k) (Some z) f' = ([], Err KeyError)) /\
  io_delitem (Some k) f' = ([], Err KeyError).
Proof.
  intros Hos Hk Hv Hl Hm f f'. destruct (archive_run os empty_file (fun _ => None) archive_empty Hos) as [_ Ha]. fold f in Ha.
  destruct (setitem_bad f _ k y l Ha Hk Hv Hl (list2array_mixed l Hm)) as (t & Ht & H1 & H2 & H3).
  unfold f', prun. rewrite Ht. done.
Qed.
