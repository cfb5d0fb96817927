(** Facts about larrys in groups of an archive. *)
From Verif Require Export SpecNested ArchiveFacts.
From Coq Require Import Ascii.

(** * Keys and paths *)
Lemma concat_cons s p : p <> [] -> String.concat "/" (s :: p) = (s ++ "/" ++ String.concat "/" p)%string.
Proof. by destruct p. Qed.
Lemma split_slash_app s t : ~ has_char slash s -> split_slash (s ++ String slash t) = s :: split_slash t.
Proof.
  induction s as [|c s IH]; intros H.
  - simpl. destruct (split_slash t) as [|w ws] eqn:E; [by apply split_slash_ne in E|]. done.
  - change (String c s ++ String slash t)%string with (String c (s ++ String slash t)). cbn [split_slash]. simpl in H. rewrite IH by tauto. rewrite decide_False; [done|]. intros ->. tauto.
Qed.
Lemma split_key p : p <> [] -> Forall flat p -> split_slash (key_of p) = p.
Proof.
  unfold key_of. induction p as [|s p IH]; [done|]. intros _ [Hs Hp]%Forall_cons. destruct p as [|s' p].
  - simpl. by apply split_slash_flat, Hs.
  - rewrite concat_cons by done. change ("/" ++ String.concat "/" (s' :: p))%string with (String slash (String.concat "/" (s' :: p))). rewrite (split_slash_app s); [|apply Hs]. by rewrite IH.
Qed.
Lemma path_of_key p : good_path p -> path_of (key_of p) = p.
Proof.
  intros [H1 H2]. unfold path_of. rewrite split_key by done. clear H1. induction p as [|s p IH]; [done|].
  apply Forall_cons in H2 as [Hs H2]. rewrite filter_cons_True by (split; apply Hs). by rewrite IH.
Qed.
Lemma key_of_ne p : good_path p -> key_of p <> ""%string.
Proof. intros Hp E. pose proof (path_of_key p Hp) as H. rewrite E in H. destruct Hp as [Hp _]. by rewrite <-H in Hp. Qed.
Lemma key_of_inj p q : good_path p -> good_path q -> key_of p = key_of q -> p = q.
Proof. intros Hp Hq E. rewrite <-(path_of_key p Hp), <-(path_of_key q Hq). by rewrite E. Qed.
Lemma h5_get_key f p : good_path p -> h5_get f (key_of p) = node_get f p.
Proof. intros H. unfold h5_get. rewrite decide_False by (by apply key_of_ne). by rewrite path_of_key. Qed.
Lemma key_of_flat p : good_path p -> flat (key_of p) -> p = [key_of p].
Proof. intros Hp Hf. rewrite <-(path_of_key p Hp) at 1. by apply path_of_flat. Qed.

(** * Saving along a path *)
Lemma lifts_get {B} k (g g0 : node -> prog node B) :
  (forall a ms c, dict_get ms k = Some c -> g (NGroup a ms) (NGroup a ms) = ((fun c' => NGroup a (dict_set k c' ms)) <$> (g0 c c).1, (g0 c c).2)) ->
  lifts k (pbind pget g) (pbind pget g0).
Proof. intros H a ms c Hc. rewrite !pbind_get. by apply H. Qed.
Lemma lifts_nested k todo : forall done_, lifts k (create_nested (k :: done_) todo) (create_nested done_ todo).
Proof.
  induction todo as [|k' todo IH]; intros done_; [apply lifts_nil|]. simpl. apply lifts_get. intros a ms c Hc.
  cbn [node_get]. rewrite Hc. cbn [mbind option_bind]. refine (lifts_bind k _ _ _ _ _ _ a ms c Hc).
  - destruct (node_get c (done_ ++ [k'])) as [[]|]; [apply lifts_nil..|apply lifts_alter].
  - intros _. apply (IH (done_ ++ [k'])).
Qed.
Definition save_rest (path : list string) (y : larry) : prog node unit :=
  _ <- h5_alter RuntimeError set_larry path;;
  _ <- (if decide (ldtype y = DObj) then praise TypeError else h5_alter RuntimeError (add_member "x"%string (NX (lx y))) path);;
  pfor (save_label path) (zip (seq 0 (lndim y)) (llabel y)).
Definition save_path (path : list string) (y : larry) : prog node unit :=
  _ <- create_nested [] path;; f <- pget;; _ <- plift (of_opt KeyError (node_get f path));; save_rest path y.
Lemma save_key p y f : good_path p -> save (Some y) (Some (key_of p)) f = save_path p y f.
Proof.
  intros Hp. unfold save, h5_get. rewrite path_of_key by done. pose proof (key_of_ne p Hp) as Hne.
  destruct (decide (key_of p = ""%string)); done.
Qed.
Lemma lifts_rest k p y : lifts k (save_rest (k :: p) y) (save_rest p y).
Proof.
  apply lifts_bind; [apply lifts_alter|]. intros _. apply lifts_bind.
  - case_decide; [apply lifts_nil|apply lifts_alter].
  - intros _. apply lifts_for. intros q. unfold save_label. apply lifts_bind; [apply lifts_nil|]. intros r.
    apply lifts_bind; [apply lifts_alter|]. intros _. simpl app. apply lifts_alter.
Qed.
Lemma save_path_in a ms k b cs p y : dict_get ms k = Some (NGroup b cs) ->
  save_path (k :: p) y (NGroup a ms) =
  ((fun c' => NGroup a (dict_set k c' ms)) <$> (save_path p y (NGroup b cs)).1, (save_path p y (NGroup b cs)).2).
Proof.
  intros Hc.
  assert (lifts k (_ <- create_nested [k] p;; f <- pget;; _ <- plift (of_opt KeyError (node_get f (k :: p)));; save_rest (k :: p) y) (save_path p y)) as Hl.
  { apply lifts_bind; [apply lifts_nested|]. intros _. apply lifts_get. intros a' ms' c' Hc'. cbn [node_get]. rewrite Hc'. cbn [mbind option_bind].
    refine (lifts_bind k _ _ _ _ _ _ a' ms' c' Hc'); [apply lifts_nil|]. intros _. apply lifts_rest. }
  rewrite <-(Hl a ms _ Hc). unfold save_path. unfold pbind at 1. symmetry. unfold pbind at 1. symmetry.
  assert (create_nested [] (k :: p) (NGroup a ms) = create_nested [k] p (NGroup a ms)) as ->; [|done].
  cbn [create_nested app]. rewrite pbind_get. cbn [node_get]. rewrite Hc. cbn [mbind option_bind node_get]. by rewrite pbind_ret.
Qed.
Lemma save_path_new a ms k p y : dict_get ms k = None ->
  save_path (k :: p) y (NGroup a ms) =
  ((fun c' => NGroup a (dict_set k c' ms)) <$> (NGroup false [] :: (save_path p y (NGroup false [])).1), (save_path p y (NGroup false [])).2).
Proof.
  intros Hc. pose proof (save_path_in a (dict_set k (NGroup false []) ms) k false [] p y) as H.
  rewrite dict_get_set, decide_True in H by done. specialize (H eq_refl).
  assert (save_path (k :: p) y (NGroup a ms) =
    (NGroup a (dict_set k (NGroup false []) ms) :: (save_path (k :: p) y (NGroup a (dict_set k (NGroup false []) ms))).1,
     (save_path (k :: p) y (NGroup a (dict_set k (NGroup false []) ms))).2)) as ->.
  { clear H. unfold save_path. set (K := fun _ : unit => f <- pget;; _ <- plift (of_opt KeyError (node_get f (k :: p)));; save_rest (k :: p) y).
    assert (create_nested [] (k :: p) (NGroup a ms) =
      (NGroup a (dict_set k (NGroup false []) ms) :: (create_nested [] (k :: p) (NGroup a (dict_set k (NGroup false []) ms))).1,
       (create_nested [] (k :: p) (NGroup a (dict_set k (NGroup false []) ms))).2)) as Hn.
    { cbn [create_nested app]. rewrite !pbind_get. cbn [node_get]. rewrite dict_get_set, decide_True by done. rewrite Hc. cbn [mbind option_bind node_get].
      rewrite pbind_ret. unfold pbind, h5_alter. cbn [node_alter add_member]. rewrite Hc. cbn. by destruct (create_nested _ _ _). }
    unfold pbind at 1. rewrite Hn. unfold pbind at 1 2.
    destruct (create_nested [] (k :: p) (NGroup a (dict_set k (NGroup false []) ms))) as [t [u|e]]; cbn [fst snd]; [|done].
    assert (final (NGroup a ms) (NGroup a (dict_set k (NGroup false []) ms) :: t) = final (NGroup a (dict_set k (NGroup false []) ms)) t) as ->.
    { unfold final. destruct t using rev_ind; [done|]. rewrite app_comm_cons, !last_snoc. done. }
    by destruct (K u _). }
  rewrite H. cbn [fst snd]. f_equal. csimpl. f_equal. apply list_fmap_ext. intros _ c _. by rewrite dict_set_set.
Qed.
Lemma save_path_nil y n : save_path [] y n = save_here y n.
Proof. unfold save_path. cbn [create_nested]. rewrite pbind_ret, pbind_get. cbn [node_get of_opt]. by rewrite pbind_lift_ok. Qed.

(** * Trees of larrys *)
Inductive rep : (list string -> Prop) -> (list string -> option larry) -> node -> Prop :=
  | rep_leaf (K : list string -> Prop) D y n : K [] -> D [] = Some y -> (forall p, p <> [] -> D p = None) -> archivable y -> finished y n -> rep K D n
  | rep_group (K : list string -> Prop) D ms : ~ K [] -> D [] = None -> NoDup ms.*1 -> Forall flat ms.*1 ->
      (forall k c, dict_get ms k = Some c -> rep (fun p => K (k :: p)) (fun p => D (k :: p)) c) ->
      (forall k p y, D (k :: p) = Some y -> k ∈ ms.*1) ->
      rep K D (NGroup false ms).
Lemma rep_ext K K' D D' n : (forall p, K p <-> K' p) -> (forall p, D p = D' p) -> rep K D n -> rep K' D' n.
Proof.
  intros HK HD H. revert K' D' HK HD. induction H as [K D y n H1 H2 H3 H4 H5|K D ms H1 H2 H3 Hf H4 IH H5]; intros K' D' HK HD.
  - eapply rep_leaf; [by apply HK|by rewrite <-HD|intros p Hp; rewrite <-HD; auto|done|done].
  - apply rep_group; [by rewrite <-HK|by rewrite <-HD|done|done| |].
    + intros k c Hk. apply (IH k c Hk); intros p; [apply HK|apply HD].
    + intros k p y. rewrite <-HD. apply H5.
Qed.
Definition anti (K : list string -> Prop) : Prop := forall p q, K p -> K q -> p `prefix_of` q -> p = q.
Lemma anti_sub K k : anti K -> anti (fun p => K (k :: p)).
Proof. intros H p q Hp Hq Hpq. specialize (H _ _ Hp Hq). apply (prefix_cons k) in Hpq. apply H in Hpq. congruence. Qed.
Lemma anti_nil K k p : anti K -> K [] -> ~ K (k :: p).
Proof. intros H H1 H2. specialize (H _ _ H1 H2 (prefix_nil _)). done. Qed.
Lemma rep_cons K D n k p : rep K D n -> anti K -> K (k :: p) ->
  exists ms, n = NGroup false ms /\ ~ K [] /\ D [] = None /\ NoDup ms.*1 /\ Forall flat ms.*1 /\
    (forall k c, dict_get ms k = Some c -> rep (fun p => K (k :: p)) (fun p => D (k :: p)) c) /\
    (forall k p y, D (k :: p) = Some y -> k ∈ ms.*1).
Proof.
  intros H Ha Hk. inversion H as [? ? y ? H1|? ? ms]; subst; [by destruct (anti_nil K k p Ha H1)|]. by exists ms.
Qed.
Lemma rep_get p : forall K D n, rep K D n -> anti K -> K p ->
  match D p with
  | Some y => exists c, node_get n p = Some c /\ archivable y /\ finished y c
  | None => node_get n p = None
  end.
Proof.
  induction p as [|k p IH]; intros K D n H Ha Hp.
  - inversion H as [? ? y ? H1 H2|? ? ms H1]; subst; [|done]. rewrite H2. eauto.
  - destruct (rep_cons _ _ _ _ _ H Ha Hp) as (ms & -> & _ & _ & _ & _ & H4 & H5). cbn [node_get].
    destruct (dict_get ms k) as [c|] eqn:E; cbn [mbind option_bind].
    + apply (IH _ _ _ (H4 k c E)); [by apply anti_sub|done].
    + destruct (D (k :: p)) as [y|] eqn:Ed; [|done]. apply H5 in Ed. apply dict_get_None in E. done.
Qed.
Lemma dict_set_names {V} (k : string) (c : V) ms k' : k' ∈ (dict_set k c ms).*1 <-> k' = k \/ k' ∈ ms.*1.
Proof.
  rewrite !dict_get_Some_in, dict_get_set. case_decide as H; [split; eauto|]. split; [by right|]. by intros [?|?].
Qed.
Lemma rep_set (K : list string -> Prop) D D' ms k c : ~ K [] -> NoDup ms.*1 -> Forall flat ms.*1 -> flat k ->
  (forall k c, dict_get ms k = Some c -> rep (fun p => K (k :: p)) (fun p => D (k :: p)) c) ->
  (forall k p y, D (k :: p) = Some y -> k ∈ ms.*1) ->
  rep (fun p => K (k :: p)) (fun p => D' (k :: p)) c -> D' [] = None -> (forall k' p, k' <> k -> D' (k' :: p) = D (k' :: p)) ->
  rep K D' (NGroup false (dict_set k c ms)).
Proof.
  intros Hn Hnd Hf Hk H1 H2 H3 H4 H5. apply rep_group; [done|done|by apply dict_set_nodup| | |].
  - apply Forall_forall. intros k' [-> |Hk']%dict_set_names; [done|]. rewrite Forall_forall in Hf. auto.
  - intros k' c'. rewrite dict_get_set. case_decide as E; [intros [= <-]; by subst|]. intros Hc'. refine (rep_ext _ _ _ _ _ _ _ (H1 _ _ Hc')); [done|].
    intros p. simpl. by rewrite H5.
  - intros k' p y Hy. apply dict_set_names. destruct (decide (k' = k)) as [|E]; [by left|]. right. rewrite H5 in Hy by done. eauto.
Qed.
Definition upd (D : list string -> option larry) (p : list string) (o : option larry) : list string -> option larry :=
  fun q => if decide (q = p) then o else D q.
Lemma upd_cons D k p o q : upd D (k :: p) o (k :: q) = upd (fun r => D (k :: r)) p o q.
Proof. unfold upd. repeat case_decide; congruence. Qed.
Lemma rep_empty (K : list string -> Prop) D : ~ K [] -> (forall p, D p = None) -> rep K D (NGroup false []).
Proof. intros H1 H2. apply rep_group; [done|done|constructor|constructor|done|]. intros k p y. by rewrite H2. Qed.
Lemma final_lift a ms k c (t : list node) : dict_get ms k = Some c ->
  final (NGroup a ms) ((fun c' => NGroup a (dict_set k c' ms)) <$> t) = NGroup a (dict_set k (final c t) ms).
Proof.
  intros Hc. replace (NGroup a ms) with ((fun c' => NGroup a (dict_set k c' ms)) c) at 1 by (by rewrite dict_set_id).
  exact (final_fmap (fun c' => NGroup a (dict_set k c' ms)) c t).
Qed.
Lemma final_cons {S} (s s' : S) t : final s (s' :: t) = final s' t.
Proof. unfold final. destruct t using rev_ind; [done|]. rewrite app_comm_cons, !last_snoc. done. Qed.
Lemma rep_save y p : archivable y -> forall K D n, rep K D n -> anti K -> K p -> D p = None -> Forall flat p -> p <> [] ->
  exists t, save_path p y n = (t, Ok ()) /\ rep K (upd D p (Some y)) (final n t).
Proof.
  intros Hy. induction p as [|k p IH]; [done|]. intros K D n H Ha Hp Hd [Hk Hfl]%Forall_cons _.
  destruct (rep_cons _ _ _ _ _ H Ha Hp) as (ms & -> & Hn & Hdn & Hnd & Hfs & H4 & H5).
  assert (forall c', rep (fun q => K (k :: q)) (upd (fun q => D (k :: q)) p (Some y)) c' ->
    rep K (upd D (k :: p) (Some y)) (NGroup false (dict_set k c' ms))) as Hset.
  { intros c' Hc'. eapply (rep_set K D); [done..| | |].
    - refine (rep_ext _ _ _ _ _ _ _ Hc'); [done|]. intros q. symmetry. apply upd_cons.
    - unfold upd. by rewrite decide_False.
    - intros k' q Hne. unfold upd. rewrite decide_False; [done|]. congruence. }
  destruct (dict_get ms k) as [c|] eqn:E.
  - assert (exists cs, c = NGroup false cs /\ p <> []) as (cs & -> & Hne).
    { pose proof (H4 k c E) as Hc. inversion Hc as [? ? y0 ? K1 D1|? ? cs K1]; subst.
      - assert ([k] = k :: p) as E' by (apply Ha; [done|done|by exists p]). injection E' as <-. congruence.
      - exists cs. split; [done|]. by intros ->. }
    destruct (IH _ _ _ (H4 k _ E) (anti_sub _ _ Ha) Hp Hd Hfl Hne) as (t & Ht & Hr).
    eexists. split; [rewrite (save_path_in false ms k false cs p y E), Ht; reflexivity|]. cbn [fst].
    rewrite (final_lift _ _ _ _ _ E). by apply Hset.
  - assert (exists t, save_path p y (NGroup false []) = (t, Ok ()) /\ rep (fun q => K (k :: q)) (upd (fun q => D (k :: q)) p (Some y)) (final (NGroup false []) t)) as (t & Ht & Hr).
    { assert (forall q, D (k :: q) = None) as HD.
      { intros q. destruct (D (k :: q)) as [z|] eqn:Ez; [|done]. apply H5 in Ez. apply dict_get_None in E. done. }
      destruct p as [|k' p'].
      - rewrite save_path_nil. destruct (save_here_ok y Hy) as (t & Ht & Hfin). exists t. split; [done|].
        eapply (rep_leaf _ _ y); [done|by unfold upd; rewrite decide_True| |done|done]. intros q Hq. unfold upd. by rewrite decide_False.
      - apply IH; [|by apply anti_sub|done|done|done|done]. apply rep_empty; [|done]. intros HK.
        assert ([k] = k :: k' :: p') as E' by (apply Ha; [done|done|by exists (k' :: p')]). done. }
    eexists. split; [rewrite (save_path_new false ms k p y E), Ht; reflexivity|]. cbn [fst]. csimpl.
    rewrite final_cons. pose proof (final_lift false (dict_set k (NGroup false []) ms) k (NGroup false []) t) as Hl.
    rewrite dict_get_set, decide_True in Hl by done. specialize (Hl eq_refl).
    erewrite (list_fmap_ext _ (fun c' => NGroup false (dict_set k c' (dict_set k (NGroup false []) ms)))) by (intros ? c' _; by rewrite dict_set_set).
    rewrite Hl, dict_set_set. by apply Hset.
Qed.
Lemma rep_del q k : forall K D n, rep K D n -> anti K -> K (q ++ [k]) -> is_Some (D (q ++ [k])) ->
  exists n', node_alter (del_member k) n q = Some n' /\ rep K (upd D (q ++ [k]) None) n'.
Proof.
  induction q as [|k0 q IH]; intros K D n H Ha Hp Hd; simpl app in *;
    destruct (rep_cons _ _ _ _ _ H Ha Hp) as (ms & -> & Hn & Hdn & Hnd & Hfs & H4 & H5).
  - cbn [node_alter del_member]. eexists. split; [done|]. apply rep_group; [done|by unfold upd; rewrite decide_False|by apply dict_del_nodup| | |].
    + apply Forall_forall. intros k' [c Hc]%dict_get_Some_in. rewrite dict_get_del in Hc. case_decide; [done|].
      rewrite Forall_forall in Hfs. apply Hfs, dict_get_Some_in. eauto.
    + intros k' c. rewrite dict_get_del. case_decide as E; [done|]. intros Hc. refine (rep_ext _ _ _ _ _ _ _ (H4 _ _ Hc)); [done|].
      intros p. simpl. unfold upd. rewrite decide_False; [done|]. congruence.
    + intros k' p y. unfold upd. case_decide as E; [done|]. intros Hy. apply H5 in Hy as Hin. apply dict_get_Some_in in Hin as [c Hc].
      apply dict_get_Some_in. exists c. rewrite dict_get_del. case_decide as E'; [|done]. subst k'. exfalso.
      pose proof (H4 k c Hc) as Hr. inversion Hr as [? ? y0 ? K1 D1 D2|]; subst; [|done]. rewrite D2 in Hy; [done|]. by intros ->.
  - destruct Hd as [y0 Hy0]. apply H5 in Hy0 as Hin. apply dict_get_Some_in in Hin as [c Hc]. cbn [node_alter]. rewrite Hc. cbn [mbind option_bind].
    destruct (IH _ _ _ (H4 _ _ Hc) (anti_sub _ _ Ha) Hp (ex_intro _ _ Hy0)) as (c' & -> & Hr). cbn [mbind option_bind].
    eexists. split; [done|]. eapply (rep_set K D); [done|done|done| |done|done| | |].
    + rewrite Forall_forall in Hfs. apply Hfs, dict_get_Some_in. eauto.
    + refine (rep_ext _ _ _ _ _ _ _ Hr); [done|]. intros r. symmetry. apply upd_cons.
    + unfold upd. by rewrite decide_False.
    + intros k' r Hne. unfold upd. rewrite decide_False; [done|]. congruence.
Qed.

(** * The keys *)
Lemma str_app_assoc (a b c : string) : ((a ++ b) ++ c = a ++ b ++ c)%string.
Proof. induction a as [|x a IH]; [done|]. change (String x ((a ++ b) ++ c) = String x (a ++ b ++ c))%string. by rewrite IH. Qed.
Definition listed (K : list string -> Prop) (D : list string -> option larry) (n : node) : Prop :=
  exists ps, NoDup ps /\ (forall p, p ∈ ps <-> p <> [] /\ is_Some (D p)) /\ Forall (Forall flat) ps /\
    forall pre, visit pre n = (fun p => (pre ++ key_of p)%string) <$> ps.
Lemma rep_listed K D n : rep K D n -> listed K D n.
Proof.
  induction 1 as [K D y n H1 H2 H3 H4 H5|K D ms H1 H2 H3 Hf H4 IH H5].
  - exists []. split_and!; [constructor| |constructor|].
    + intros p. split; [by intros ?%elem_of_nil|]. intros [Hp [z Hz]]. by rewrite H3 in Hz.
    + intros pre. destruct H5 as [H5 _]. by rewrite (visit_unfinished _ _ _ H5).
  - assert (exists ps, NoDup ps /\ (forall p, p ∈ ps <-> exists k q, p = k :: q /\ k ∈ ms.*1 /\ is_Some (D p)) /\ Forall (Forall flat) ps /\
      forall pre, visit pre (NGroup false ms) = (fun p => (pre ++ key_of p)%string) <$> ps) as (ps & P1 & P2 & P3 & P4).
    { clear H1 H2 H5. induction ms as [|[k c] ms IHm].
      { exists []. split_and!; [constructor| |constructor|done]. intros p. split; [by intros ?%elem_of_nil|]. intros (k & q & _ & H & _). by apply elem_of_nil in H. }
      csimpl in H3. csimpl in Hf. apply NoDup_cons in H3 as [Hk H3]. apply Forall_cons in Hf as [Hfk Hf].
      destruct IHm as (ps & P1 & P2 & P3 & P4); [done|done| | |].
      { intros k' c' Hc'. apply H4. simpl. rewrite decide_False; [done|]. intros ->. apply Hk, dict_get_Some_in. eauto. }
      { intros k' c' Hc'. apply IH. simpl. rewrite decide_False; [done|]. intros ->. apply Hk, dict_get_Some_in. eauto. }
      destruct (IH k c) as (qs & Q1 & Q2 & Q3 & Q4); [simpl; by rewrite decide_True|].
      assert (rep (fun p => K (k :: p)) (fun p => D (k :: p)) c) as Hc by (apply H4; simpl; by rewrite decide_True).
      assert (is_archived c = true <-> is_Some (D [k])) as Harch.
      { inversion Hc as [? ? y ? K1 D1 D2 A1 F1|? ? cs K1 D1]; subst.
        - rewrite D1. split; [eauto|]. intros _. by apply (finished_load y c A1 F1).
        - rewrite D1. split; [done|by intros []]. }
      exists ((if is_archived c then [[k]] else []) ++ ((fun q => k :: q) <$> qs) ++ ps). split_and!.
      - apply NoDup_app. split; [destruct (is_archived c); [apply NoDup_singleton|constructor]|]. split.
        + intros x Hx. assert (x = [k]) as -> by (destruct (is_archived c); [by apply elem_of_list_singleton|by apply elem_of_nil in Hx]).
          rewrite elem_of_app. intros [(q & Eq & Hq)%elem_of_list_fmap|Hp].
          * injection Eq as <-. by apply Q2 in Hq as [? _].
          * apply P2 in Hp as (k' & q & E & Hk' & _). by injection E as <- <-.
        + apply NoDup_app. split; [apply NoDup_fmap_2; [by intros ? ? [=]|done]|]. split; [|done].
          intros x (q & -> & Hq)%elem_of_list_fmap (k' & q' & E & Hk' & _)%P2. by injection E as <- <-.
      - intros p. rewrite !elem_of_app, elem_of_list_fmap. split.
        + intros [Hp|[(q & -> & Hq)|Hp]].
          * destruct (is_archived c); [|by apply elem_of_nil in Hp]. apply elem_of_list_singleton in Hp as ->. exists k, []. split_and!; [done|by left|by apply Harch].
          * apply Q2 in Hq as [Hq1 Hq2]. exists k, q. split_and!; [done|by left|done].
          * apply P2 in Hp as (k' & q & -> & Hk' & Hd). exists k', q. split_and!; [done|by right|done].
        + intros (k' & q & -> & Hk' & Hd). csimpl in Hk'. apply elem_of_cons in Hk' as [-> |Hk'].
          * destruct q as [|k2 q]; [left|right; left].
            -- apply Harch in Hd as ->. by apply elem_of_list_singleton.
            -- exists (k2 :: q). split; [done|]. by apply Q2.
          * right; right. apply P2. eauto.
      - apply Forall_app. split; [destruct (is_archived c); [by apply Forall_singleton, Forall_singleton|constructor]|]. apply Forall_app. split; [|done].
        apply Forall_fmap. eapply Forall_impl; [exact Q3|]. intros q Hq. simpl. by constructor.
      - intros pre. specialize (P4 pre). cbn [visit map concat fst snd] in *. rewrite P4. rewrite !fmap_app, <-app_assoc. f_equal; [by destruct (is_archived c)|].
        f_equal. rewrite Q4, <-list_fmap_compose. apply list_fmap_ext. intros i q Hq. simpl.
        assert (q <> []) as Hne by (apply (Q2 q); by eapply elem_of_list_lookup_2). unfold key_of. rewrite concat_cons by done.
        by rewrite !str_app_assoc. }
    exists ps. split_and!; [done| |done|done]. intros p. rewrite P2. split.
    + by intros (k & q & -> & _ & Hd).
    + intros [Hp [y Hy]]. destruct p as [|k q]; [done|]. exists k, q. split_and!; [done|by eapply H5|eauto].
Qed.

(** * Dictionaries with the keys of paths *)
Section keys.
Set Default Proof Using "All".
Context (K : list (list string)) (HK : Forall good_path K) (Ha : antichain K).
Definition at_paths (d : ldict) (p : list string) : option larry := if decide (p ∈ K) then d (key_of p) else None.
Definition stored (f : node) (d : ldict) : Prop :=
  rep (fun p => p ∈ K) (at_paths d) f /\ forall k, is_Some (d k) -> keyed K k.
Lemma good p : p ∈ K -> good_path p.
Proof. rewrite Forall_forall in HK. apply HK. Qed.
Lemma at_paths_in d p : p ∈ K -> at_paths d p = d (key_of p).
Proof. intros H. unfold at_paths. by rewrite decide_True. Qed.
Lemma at_paths_upd d p o q : p ∈ K -> at_paths (fun k => if decide (k = key_of p) then o else d k) q = upd (at_paths d) p o q.
Proof.
  intros Hp. unfold at_paths, upd. destruct (decide (q = p)) as [-> |Hne].
  - by rewrite !decide_True.
  - case_decide as Hq; [|done]. rewrite decide_False; [done|]. intros E. apply Hne. by apply key_of_inj; [apply good..|].
Qed.
Lemma stored_ext f d d' : (forall k, d k = d' k) -> stored f d -> stored f d'.
Proof.
  intros H [H1 H2]. split.
  - refine (rep_ext _ _ _ _ _ _ _ H1); [done|]. intros p. unfold at_paths. by rewrite H.
  - intros k. rewrite <-H. apply H2.
Qed.
Lemma stored_root f d : stored f d -> exists ms, f = NGroup false ms /\ NoDup ms.*1 /\ Forall flat ms.*1.
Proof.
  intros [H _]. inversion H as [? ? y ? H1|? ? ms]; subst; [|by exists ms]. apply good in H1 as [? _]. done.
Qed.
Lemma stored_empty : stored empty_file (fun _ => None).
Proof.
  split; [|by intros k [? ?]]. apply rep_empty; [by intros [? _]%good|]. intros p. unfold at_paths. by case_decide.
Qed.
Lemma stored_get f d p : stored f d -> p ∈ K ->
  match d (key_of p) with
  | Some y => exists c, node_get f p = Some c /\ archivable y /\ finished y c
  | None => node_get f p = None
  end.
Proof. intros [H _] Hp. rewrite <-(at_paths_in d p Hp). by apply (rep_get p _ _ _ H). Qed.
Lemma stored_new f d p y : stored f d -> p ∈ K -> archivable y -> d (key_of p) = None ->
  exists t, save (Some y) (Some (key_of p)) f = (t, Ok ()) /\ stored (final f t) (fun k => if decide (k = key_of p) then Some y else d k).
Proof.
  intros [H1 H2] Hp Hy Hd. pose proof (good p Hp) as Hgp. rewrite save_key by done.
  destruct (rep_save y p Hy _ _ _ H1 Ha Hp) as (t & Ht & Hr); [by rewrite at_paths_in|apply Hgp|apply Hgp|].
  exists t. split; [done|]. split.
  - refine (rep_ext _ _ _ _ _ _ _ Hr); [done|]. intros q. by rewrite at_paths_upd.
  - intros k. case_decide as E; [|apply H2]. intros _. exists p. by subst.
Qed.
Lemma stored_del f d p : stored f d -> p ∈ K -> is_Some (d (key_of p)) ->
  exists t, io_delitem (Some (key_of p)) f = (t, Ok ()) /\ stored (final f t) (fun k => if decide (k = key_of p) then None else d k).
Proof.
  intros Hs Hp [y Hy]. pose proof (stored_get f d p Hs Hp) as Hg. rewrite Hy in Hg. destruct Hg as (c & Hc & Hay & Hfc).
  destruct (finished_load y c Hay Hfc) as (Ec & _). pose proof (good p Hp) as Hgp.
  unfold io_delitem, h5_delete. rewrite pbind_get, h5_get_key by done. rewrite Hc. cbn [of_opt]. rewrite pbind_lift_ok, Ec. rewrite path_of_key by done.
  destruct p as [|k q _] using rev_ind; [by destruct Hgp|]. rewrite last_snoc, app_length. cbn [length].
  replace (length q + 1 - 1) with (length q) by lia. rewrite take_app. destruct Hs as [H1 H2].
  destruct (rep_del q k _ _ _ H1 Ha Hp) as (n' & Hn & Hr); [rewrite at_paths_in by done; eauto|].
  unfold h5_alter. rewrite Hn. eexists. split; [done|]. split.
  - refine (rep_ext _ _ _ _ _ _ _ Hr); [done|]. intros r. by rewrite at_paths_upd.
  - intros k'. case_decide; [by intros []|apply H2].
Qed.
Lemma stored_missing f d p : stored f d -> p ∈ K -> d (key_of p) = None -> io_delitem (Some (key_of p)) f = ([], Err KeyError).
Proof.
  intros Hs Hp Hd. pose proof (stored_get f d p Hs Hp) as Hg. rewrite Hd in Hg.
  unfold io_delitem, h5_delete. by rewrite pbind_get, h5_get_key, Hg by (by apply good).
Qed.
Lemma stored_load f d p : stored f d -> p ∈ K ->
  load f (Some (key_of p)) = of_opt KeyError (d (key_of p)) /\ io_getitem f (Some (key_of p)) = of_opt KeyError (d (key_of p)).
Proof.
  intros Hs Hp. pose proof (stored_get f d p Hs Hp) as Hg. rewrite load_alt. unfold io_getitem. rewrite h5_get_key by (by apply good).
  destruct (d (key_of p)) as [y|]; [|by rewrite Hg]. destruct Hg as (c & -> & Hy & Hc).
  destruct (finished_load y c Hy Hc) as (E1 & E2 & E3). cbn [of_opt mbind res_bind]. split; [done|].
  rewrite E1, E2. cbn [mbind res_bind]. destruct Hc as (_ & ms' & -> & Hx & _). rewrite Hx. by destruct y.
Qed.
Lemma stored_put f d p y : stored f d -> p ∈ K -> archivable y -> d (key_of p) = None \/ flat (key_of p) ->
  exists t, io_setitem (Some (key_of p)) (Some y) f = (t, Ok ()) /\ stored (final f t) (fun k => if decide (k = key_of p) then Some y else d k).
Proof.
  intros Hs Hp Hy Hk. destruct (stored_root f d Hs) as (ms & Hf & Hnd & Hfl). unfold io_setitem. rewrite pbind_get. rewrite Hf. rewrite <-Hf.
  pose proof (stored_get f d p Hs Hp) as Hg.
  destruct (decide (key_of p ∈ ms.*1)) as [Hin|Hin].
  - assert (p = [key_of p]) as Ep by (apply key_of_flat; [by apply good|]; rewrite Forall_forall in Hfl; by apply Hfl).
    destruct (d (key_of p)) as [y0|] eqn:Ed.
    + destruct (stored_del f d p Hs Hp) as (t1 & Ht1 & Hs1); [eauto|].
      destruct (stored_new _ _ p y Hs1 Hp Hy) as (t2 & Ht2 & Hs2); [by rewrite decide_True|].
      exists (t1 ++ t2). split; [rewrite (pbind_ok _ _ _ _ _ Ht1); by rewrite Ht2|]. rewrite final_app.
      eapply stored_ext; [|exact Hs2]. intros k. simpl. by case_decide.
    + rewrite Ep in Hg. rewrite Hf in Hg. cbn [node_get] in Hg. apply dict_get_Some_in in Hin as [c Hc]. by rewrite Hc in Hg.
  - rewrite pbind_ret. apply stored_new; [done|done|done|]. destruct (d (key_of p)) as [y0|] eqn:Ed; [|done].
    destruct Hk as [Hk|Hk]; [done|]. apply key_of_flat in Hk; [|by apply good]. destruct Hg as (c & Hc & _). rewrite Hk, Hf in Hc.
    cbn [node_get] in Hc. destruct (dict_get ms (key_of p)) eqn:E; [|done]. exfalso. apply Hin, dict_get_Some_in. eauto.
Qed.
Lemma stored_keys f d : stored f d -> NoDup (io_keys f) /\ forall k, k ∈ io_keys f <-> is_Some (d k).
Proof.
  intros [H1 H2]. destruct (rep_listed _ _ _ H1) as (ps & P1 & P2 & P3 & P4). unfold io_keys, archive_directory. rewrite P4.
  assert (forall p, p ∈ ps -> p ∈ K /\ is_Some (d (key_of p))) as Hps.
  { intros p Hp. apply P2 in Hp as [_ Hp]. unfold at_paths in Hp. case_decide; [done|by destruct Hp]. }
  split.
  - clear P2 P3 P4. induction P1 as [|p ps Hp P1 IH]; [constructor|]. csimpl. constructor; [|apply IH; intros; apply Hps; by right].
    intros (q & E & Hq)%elem_of_list_fmap. assert (p = q) as ->; [|done].
    apply key_of_inj; [apply good, Hps; by left|apply good, Hps; by right|done].
  - intros k. rewrite elem_of_list_fmap. split.
    + intros (p & -> & Hp). by apply Hps in Hp as [_ Hp].
    + intros Hk. destruct (H2 k Hk) as (p & Hp & ->). exists p. split; [done|]. apply P2. split; [by apply good|]. by rewrite at_paths_in.
Qed.
Lemma stored_clear_keys ks : forall f d, stored f d -> NoDup ks -> (forall k, k ∈ ks -> is_Some (d k)) ->
  exists t, pfor (fun k => io_delitem (Some k)) ks f = (t, Ok ()) /\ stored (final f t) (fun k => if decide (k ∈ ks) then None else d k).
Proof.
  induction ks as [|k ks IH]; intros f d Hs Hnd Hks.
  { exists []. split; [done|]. eapply stored_ext; [|exact Hs]. intros k. by rewrite decide_False by apply not_elem_of_nil. }
  apply NoDup_cons in Hnd as [Hk Hnd]. pose proof (Hks k) as Hdk. specialize (Hdk ltac:(by left)).
  destruct (proj2 Hs k Hdk) as (p & Hp & ->). destruct (stored_del f d p Hs Hp Hdk) as (t1 & Ht1 & Hs1).
  destruct (IH _ _ Hs1 Hnd) as (t2 & Ht2 & Hs2).
  { intros k' Hk'. rewrite decide_False by (by intros ->). apply Hks. by right. }
  exists (t1 ++ t2). split.
  - cbn [pfor]. rewrite (pbind_ok _ _ _ _ _ Ht1). cbv beta. rewrite Ht2. done.
  - rewrite final_app. eapply stored_ext; [|exact Hs2]. intros k'. simpl.
    destruct (decide (k' ∈ ks)), (decide (k' ∈ key_of p :: ks)) as [|Hn]; try done.
    + exfalso. apply Hn. by right.
    + rewrite decide_True; [done|]. apply elem_of_cons in e as [?|?]; done.
    + rewrite decide_False; [done|]. intros ->. apply Hn. by left.
Qed.
Lemma stored_step f d o : stored f d -> nested_op K o -> match o with DPut k _ => d k = None \/ flat k | _ => True end ->
  exists t, io_op o f = (t, (dict_step d o).2) /\ stored (final f t) (dict_step d o).1.
Proof.
  intros Hs Ho Hn. destruct o as [k y|k|]; simpl in *.
  - destruct Ho as [(p & Hp & ->) Hy]. by apply stored_put.
  - destruct Ho as (p & Hp & ->). destruct (d (key_of p)) as [y|] eqn:Ed; [apply stored_del; eauto|].
    exists []. split; [by apply (stored_missing f d)|done].
  - destruct (stored_keys f d Hs) as [Hnd Hk]. destruct (stored_clear_keys (io_keys f) f d Hs Hnd) as (t & Ht & Hs'); [intros k; apply Hk|].
    exists t. split; [unfold io_clear; by rewrite pbind_get|]. eapply stored_ext; [|exact Hs']. intros k. simpl.
    case_decide as Hin; [done|]. rewrite Hk in Hin. by apply eq_None_not_Some.
Qed.
Lemma stored_run os : forall f d, stored f d -> Forall (nested_op K) os -> puts_new d os ->
  (io_run f os).2 = (dict_run d os).2 /\ stored (io_run f os).1 (dict_run d os).1.
Proof.
  induction os as [|o os IH]; intros f d Hs Hos Hnew; [done|]. apply Forall_cons in Hos as [Ho Hos]. destruct Hnew as [Hn Hnew].
  destruct (stored_step f d o Hs Ho Hn) as (t & Ht & Hs'). simpl. unfold prun. rewrite Ht. destruct (dict_step d o) as [d' r]. simpl in *.
  destruct (IH _ _ Hs' Hos Hnew) as [E1 E2]. destruct (io_run (final f t) os), (dict_run d' os). simpl in *. by rewrite E1.
Qed.
(** Assigning again to a key with a slash. *)
Lemma stored_again f d p y z : stored f d -> p ∈ K -> ~ flat (key_of p) -> d (key_of p) = Some y -> ldtype z <> DObj ->
  io_setitem (Some (key_of p)) (Some z) f = ([f], Err RuntimeError).
Proof.
  intros Hs Hp Hk Hd Hz. destruct (stored_root f d Hs) as (ms & Hf & Hnd & Hfl). unfold io_setitem. rewrite pbind_get. rewrite Hf. rewrite <-Hf.
  rewrite decide_False by (intros Hin; rewrite Forall_forall in Hfl; by apply Hk, Hfl). rewrite pbind_ret.
  rewrite save_key by (by apply good). pose proof (stored_get f d p Hs Hp) as Hg. rewrite Hd in Hg. destruct Hg as (c & Hc & Hy & Hfc).
  assert (p <> []) as Hne by (by apply good in Hp as [? _]).
  assert (exists a fs, f = NGroup a fs) as (a & fs & ->) by (by exists false, ms). clear -Hc Hfc Hz Hne.
  revert a fs Hc. induction p as [|k p IH]; [done|]. clear Hne. intros a fs Hc. cbn [node_get] in Hc.
  destruct (dict_get fs k) as [c'|] eqn:E; [|done]. cbn [mbind option_bind] in Hc.
  assert (exists b cs, c' = NGroup b cs) as (b & cs & ->).
  { destruct p; [injection Hc as ->; destruct Hfc as (_ & cs & -> & _); eauto|]. destruct c'; [done|done|eauto]. }
  rewrite (save_path_in a fs k b cs p z E). assert (save_path p z (NGroup b cs) = ([NGroup b cs], Err RuntimeError)) as ->.
  { destruct p as [|k' p']; [|by apply IH]. injection Hc as <-. rewrite save_path_nil. destruct Hfc as (_ & cs' & E' & Hx & _). injection E' as -> <-.
    unfold save_here. rewrite decide_False by done. rewrite (pbind_ok _ _ _ [NGroup true cs] ()) by done. cbn [final last default]. 
    unfold pbind, h5_alter. cbn [node_alter add_member]. unfold final. cbn [last default from_option]. simpl. by rewrite Hx. }
  cbn [fst snd]. csimpl. by rewrite (dict_set_id k _ _ E).
Qed.
End keys.

Lemma nested_dictionary K os : Forall good_path K -> antichain K -> Forall (nested_op K) os -> puts_new (fun _ => None) os ->
  let f := (io_run empty_file os).1 in
  let d := (dict_run (fun _ => None) os).1 in
  (io_run empty_file os).2 = (dict_run (fun _ => None) os).2 /\
  NoDup (io_keys f) /\ (forall k, k ∈ io_keys f <-> is_Some (d k)) /\
  (forall k, keyed K k -> load f (Some k) = of_opt KeyError (d k) /\ io_getitem f (Some k) = of_opt KeyError (d k)).
Proof.
  intros HK Ha Hos Hn. destruct (stored_run K HK Ha os _ _ (stored_empty K HK Ha) Hos Hn) as [E Hs]. split; [done|].
  destruct (stored_keys K HK Ha _ _ Hs) as [H1 H2]. split_and!; [done|done|]. intros k (p & Hp & ->). by apply (stored_load K HK Ha).
Qed.
Lemma nested_again K os k y z : Forall good_path K -> antichain K -> Forall (nested_op K) os -> puts_new (fun _ => None) os ->
  keyed K k -> ~ flat k -> ldtype z <> DObj ->
  let f := (io_run empty_file os).1 in
  load f (Some k) = Ok y -> prun (io_setitem (Some k) (Some z)) f = (f, Err RuntimeError).
Proof.
  intros HK Ha Hos Hn (p & Hp & ->) Hfl Hz. destruct (stored_run K HK Ha os _ _ (stored_empty K HK Ha) Hos Hn) as [_ Hs]. cbv zeta.
  destruct (stored_load K HK Ha _ _ p Hs Hp) as [-> _]. intros Hd. unfold prun.
  destruct ((dict_run (fun _ => None) os).1 (key_of p)) as [y'|] eqn:Ed; [|done]. by rewrite (stored_again K HK Ha _ _ p y' z Hs Hp Hfl Ed Hz).
Qed.
(** A path that leads through data. *)
Lemma node_get_app n p q : node_get n (p ++ q) = c ← node_get n p; node_get c q.
Proof. revert n. induction p as [|k p IH]; intros n; [done|]. simpl. destruct n as [| |a ms]; try done. destruct (dict_get ms k); [|done]. simpl. by rewrite IH. Qed.
Lemma create_through q d p : forall f n, node_get f (d ++ p) = Some n -> p <> [] -> (forall a ms, n <> NGroup a ms) ->
  create_nested d (p ++ q) f = ([], Err ValueError).
Proof.
  revert d. induction p as [|k p IH]; intros d f n Hn Hp Hd; [done|]. cbn [app create_nested]. rewrite pbind_get.
  change (k :: p) with ([k] ++ p) in Hn. rewrite app_assoc, node_get_app in Hn. destruct (node_get f (d ++ [k])) as [c|] eqn:Ec; [|done]. cbn [mbind option_bind] in Hn.
  destruct p as [|k' p].
  - simpl in Hn. injection Hn as ->. destruct n as [x|x|a ms]; [done|done|]. by destruct (Hd a ms).
  - destruct c as [| |a ms]; try done. rewrite pbind_ret. eapply IH; [|done|done]. rewrite node_get_app, Ec. exact Hn.
Qed.
Lemma save_through f p q n y : good_path p -> good_path (p ++ q) -> h5_get f (key_of p) = Some n -> (forall a ms, n <> NGroup a ms) ->
  prun (save (Some y) (Some (key_of (p ++ q)))) f = (f, Err ValueError).
Proof.
  intros Hp Hpq Hn Hd. rewrite h5_get_key in Hn by done. unfold prun, save. rewrite path_of_key by done. unfold pbind at 1.
  rewrite (create_through q [] p f n Hn) by (done || apply Hp). done.
Qed.
