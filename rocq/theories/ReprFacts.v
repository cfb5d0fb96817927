From Verif Require Export Repr.
From Verif Require Import TableFacts YahooFacts Yahoo Archive.

Section show.
  Context (str : lab -> text) (repr : nda -> text).
  Notation axis_lines := (axis_lines str).
  Notation label_lines := (label_lines str).

  Definition ended (ls : list text) : text := concat ((fun l : text => l ++ [nl]) <$> ls).
  Lemma ended_app a b : ended (a ++ b) = ended a ++ ended b.
  Proof. unfold ended. by rewrite fmap_app, concat_app. Qed.
  Lemma split_ended ls t : Forall (fun l : text => nl ∉ l) ls -> split_at nl (ended ls ++ t) = ls ++ split_at nl t.
  Proof.
    intros H. induction H as [|l ls Hl H IH]; [done|]. unfold ended in *. cbn [fmap list_fmap concat].
    rewrite <- app_assoc, <- app_assoc. cbn [app]. rewrite (split_at_cons nl l _ Hl). by rewrite IH.
  Qed.

  (** ** The code *)
  Lemma short_get (a b c : lab) mid d e f :
    let l := [a; b; c] ++ mid ++ [d; e; f] in
    py_get l 0 = Some a /\ py_get l 1 = Some b /\ py_get l 2 = Some c /\
    py_get l (-3) = Some d /\ py_get l (-2) = Some e /\ py_get l (-1) = Some f.
  Proof.
    intros l. unfold py_get, py_index. assert (length l = 6 + length mid) as ->.
    { unfold l. rewrite !app_length. cbn. lia. }
    assert (forall i x, [d; e; f] !! i = Some x -> l !! (3 + length mid + i) = Some x) as Hr.
    { intros i x Hi. unfold l. rewrite lookup_app_r by (cbn; lia). cbn [length]. rewrite lookup_app_r by lia.
      rewrite <- Hi. f_equal. lia. }
    split_and!; repeat (rewrite decide_True by lia); repeat (rewrite decide_False by lia); repeat (rewrite decide_True by lia); cbn [mbind option_bind].
    - reflexivity.
    - reflexivity.
    - reflexivity.
    - rewrite <- (Hr 0 d eq_refl). f_equal. lia.
    - rewrite <- (Hr 1 e eq_refl). f_equal. lia.
    - rewrite <- (Hr 2 f eq_refl). f_equal. lia.
  Qed.
  Lemma long_list (l : list lab) : 10 < length l -> exists a b c mid d e f, l = [a; b; c] ++ mid ++ [d; e; f] /\ 4 < length mid.
  Proof.
    intros H. destruct l as [|a [|b [|c l]]]; cbn in H; try lia.
    exists a, b, c. destruct (rev l) as [|f [|e [|d r]]] eqn:E; apply (f_equal (@rev lab)) in E; rewrite rev_involutive in E; subst l; cbn in H; rewrite ?app_length in H; cbn in H; try lia.
    exists (rev r), d, e, f. split; [|lia]. cbn. by rewrite <- !app_assoc.
  Qed.
  Lemma repr_axis_ok i l : exists ls, axis_lines l ls /\ repr_axis str i l = Ok (ended ((letters "label_" ++ digits i) :: ls)).
  Proof.
    unfold repr_axis, ended. destruct (decide (10 < length l)) as [Hl|Hl].
    - destruct (long_list l Hl) as (a & b & c & mid & d & e & f & -> & Hm).
      exists (indented <$> [str a; str b; str c; letters "..."; str d; str e; str f]).
      split; [by constructor|].
      destruct (short_get a b c mid d e f) as (E0 & E1 & E2 & E3 & E4 & E5). unfold repr_label.
      rewrite E0, E1, E2, E3, E4, E5. cbn [of_opt mbind res_bind fmap list_fmap concat]. unfold indented, repr_pad, digits, str_nat.
      f_equal. rewrite <- !app_assoc. cbn [app]. by rewrite ?app_nil_r, <- ?app_assoc.
    - exists ((fun a => indented (str a)) <$> l). split.
      { constructor; [lia|]. clear. induction l; by constructor. }
      cbn [mbind res_bind fmap list_fmap concat]. unfold digits, str_nat. f_equal. rewrite <- !app_assoc. do 3 f_equal.
      clear. induction l as [|a l IH]; [done|]. cbn [fmap list_fmap concat]. rewrite IH. unfold indented, repr_pad.
      by rewrite <- !app_assoc.
  Qed.
  Lemma repr_axes_ok L : forall i, exists ls, label_lines i L ls /\ exists x, mapR (fun p : nat * list lab => repr_axis str p.1 p.2) (zip (seq i (length L)) L) = Ok x /\ concat x = ended ls.
  Proof.
    induction L as [|l L IH]; intros i.
    - exists []. split; [constructor|]. by exists [].
    - destruct (repr_axis_ok i l) as (ls & Hls & Hx). destruct (IH (S i)) as (rest & Hr & x & Hm & Hc).
      exists ((letters "label_" ++ digits i) :: ls ++ rest). split; [by constructor|].
      eexists. change (zip (seq i (length (l :: L))) (l :: L)) with ((i, l) :: zip (seq (S i) (length L)) L).
      cbn [mapR fst snd]. rewrite Hx. cbn [mbind res_bind]. rewrite Hm. cbn [mbind res_bind]. split; [done|].
      cbn [concat]. rewrite Hc, <- ended_app. done.
  Qed.
  Lemma larry_repr_shows y : exists t, larry_repr str repr y = Ok t /\ shows str repr y t.
  Proof.
    destruct (repr_axes_ok (llabel y) 0) as (ls & Hls & x & Hx & Hc). unfold larry_repr. rewrite Hx. cbn [mbind res_bind].
    eexists; split; [done|]. exists ls. split; [done|]. rewrite Hc. by rewrite <- app_assoc.
  Qed.

  (** ** Reading the text *)
  Lemma axis_lines_indented l ls : axis_lines l ls -> Forall (fun s => exists t, s = indented t) ls.
  Proof.
    intros [l' ls' _ H|]; [|repeat constructor; eauto].
    induction H as [|a s l'' ls'' -> H IH]; constructor; eauto.
  Qed.
  Lemma label_lines_head i L ls : label_lines i L ls -> ls = [] \/ exists rest, ls = (letters "label_" ++ digits i) :: rest.
  Proof. intros []; [by left|right; eauto]. Qed.
  Lemma label_lines_not_x i L ls : label_lines i L ls -> letters "x" ∉ ls.
  Proof.
    intros H. induction H as [|i l L ls rest Hl Hr IH]; [by intros ?%elem_of_nil|].
    intros [Hx|[Hx|Hx]%elem_of_app]%elem_of_cons; [discriminate Hx| |done].
    apply axis_lines_indented in Hl. rewrite Forall_forall in Hl. destruct (Hl _ Hx) as [t Ht]. discriminate Ht.
  Qed.
  Lemma split_on {A} (x : A) a b a' b' : x ∉ a -> x ∉ a' -> a ++ x :: b = a' ++ x :: b' -> a = a' /\ b = b'.
  Proof.
    revert a'. induction a as [|c a IH]; intros [|c' a'] Ha Ha' H; cbn in H.
    - injection H as ->. done.
    - injection H as -> _. destruct Ha'. left.
    - injection H as -> _. destruct Ha. left.
    - injection H as -> H. rewrite elem_of_cons in Ha, Ha'. destruct (IH a' ltac:(tauto) ltac:(tauto) H) as [-> ->]. done.
  Qed.
  Lemma no_nl_letters s : forallb (fun c => negb (bool_decide (c = nl))) (letters s) = true -> nl ∉ letters s.
  Proof. intros H Hin. rewrite forallb_forall in H. apply elem_of_list_In in Hin. specialize (H _ Hin). by rewrite bool_decide_true in H. Qed.
  Lemma no_nl_digits i : nl ∉ digits i.
  Proof.
    unfold digits. generalize (Nat.to_uint i) as u. induction u; cbn;
      first [by intros ?%elem_of_nil|intros [Hx|Hx]%elem_of_cons; [discriminate Hx|done]].
  Qed.
  Lemma no_nl_indented t : nl ∉ t -> nl ∉ indented t.
  Proof. intros H [Hx|Hx]%elem_of_app; [|done]. revert Hx. by apply no_nl_letters. Qed.
  Lemma axis_lines_no_nl l ls : axis_lines l ls -> (forall a, a ∈ l -> nl ∉ str a) -> Forall (fun s : text => nl ∉ s) ls.
  Proof.
    intros [l' ls' _ H|a b c mid d e f _] Hn.
    - induction H as [|a s l'' ls'' -> H IH]; constructor.
      + apply no_nl_indented, Hn. left.
      + apply IH. intros a' Ha'. apply Hn. by right.
    - assert (forall x, x ∈ [a; b; c] \/ x ∈ [d; e; f] -> nl ∉ str x) as Hs.
      { intros x Hx. apply Hn. rewrite !elem_of_app. tauto. }
      repeat (apply Forall_cons; split); try (apply no_nl_indented); try (apply Hs; rewrite !elem_of_cons; tauto); [|constructor].
      by apply no_nl_letters.
  Qed.
  Lemma label_lines_no_nl i L ls : label_lines i L ls -> (forall l a, l ∈ L -> a ∈ l -> nl ∉ str a) -> Forall (fun s : text => nl ∉ s) ls.
  Proof.
    intros H. induction H as [|i l L ls rest Hl Hr IH]; intros Hn; constructor.
    - intros [Hx|Hx]%elem_of_app; [|by apply no_nl_digits in Hx]. revert Hx. by apply no_nl_letters.
    - apply Forall_app. split.
      + apply (axis_lines_no_nl _ _ Hl). intros a. apply Hn. left.
      + apply IH. intros l' a Hl'. apply Hn. by right.
  Qed.
  Lemma shows_lines y z t : one_line str y -> one_line str z -> shows str repr y t -> shows str repr z t ->
    repr (lx y) = repr (lx z) /\ exists ls, label_lines 0 (llabel y) ls /\ label_lines 0 (llabel z) ls.
  Proof.
    intros Hy Hz (ls & Hl & ->) (ls' & Hl' & Ht).
    assert (forall ls w, Forall (fun l : text => nl ∉ l) ls -> split_at nl (ended ls ++ letters "x" ++ [nl] ++ w) = ls ++ letters "x" :: split_at nl w) as Hs.
    { intros l w H. rewrite split_ended by done. done. }
    apply (f_equal (split_at nl)) in Ht.
    change (split_at nl (ended ls ++ letters "x" ++ [nl] ++ repr (lx y)) = split_at nl (ended ls' ++ letters "x" ++ [nl] ++ repr (lx z))) in Ht.
    rewrite !Hs in Ht by (by eapply label_lines_no_nl).
    destruct (split_on (letters "x") ls (split_at nl (repr (lx y))) ls' (split_at nl (repr (lx z)))) as [-> Hr];
      [by eapply label_lines_not_x..|exact Ht|].
    split; [|by exists ls']. by rewrite <- (join_split nl (repr (lx y))), Hr, join_split.
  Qed.
  Lemma indented_split ls ls' rest rest' i L L' : Forall (fun s => exists t, s = indented t) ls -> Forall (fun s => exists t, s = indented t) ls' ->
    label_lines i L rest -> label_lines i L' rest' -> ls ++ rest = ls' ++ rest' -> ls = ls' /\ rest = rest'.
  Proof.
    intros Hls. revert ls'. induction Hls as [|s ls [t ->] Hls IH]; intros ls' Hls' Hr Hr' H; destruct Hls' as [|s' ls' [t' ->] Hls']; cbn in H.
    - done.
    - apply label_lines_head in Hr as [-> |(r & ->)]; discriminate H.
    - apply label_lines_head in Hr' as [-> |(r & ->)]; discriminate H.
    - injection H as H1 H2. destruct (IH ls' Hls' Hr Hr' H2) as [-> ->]. split; [|done]. by rewrite H1.
  Qed.
  Lemma label_lines_same L : forall i L' ls, label_lines i L ls -> label_lines i L' ls ->
    Forall2 (fun l l' => exists s, axis_lines l s /\ axis_lines l' s) L L'.
  Proof.
    induction L as [|l L IH]; intros i L' ls H H'.
    - inversion H; subst. inversion H'; subst. constructor.
    - inversion H as [|i0 l0 L0 s rest Hs Hr]; subst. inversion H' as [|i0 l1 L1 s' rest' Hs' Hr' E1 E2 E3]; subst.
      destruct (indented_split s s' rest rest' (S i) L L1) as [-> ->]; [by eapply axis_lines_indented..|done|done|done|].
      constructor; [by exists s'|by apply (IH (S i) L1 rest')].
  Qed.
  Lemma axis_lines_short l l' s : axis_lines l s -> axis_lines l' s -> length l <= 10 -> length l' <= 10 -> str <$> l = str <$> l'.
  Proof.
    intros H H' Hl Hl'. destruct H as [l s _ H|a b c mid d e f Hm]; [|rewrite !app_length in Hl; cbn in Hl; lia].
    destruct H' as [l' s _ H'|a b c mid d e f Hm]; [|rewrite !app_length in Hl'; cbn in Hl'; lia].
    clear Hl Hl'. revert l' H'. induction H as [|a t l s -> H IH]; intros l' H'; inversion H' as [|a' t' l'' s' E H'']; subst; [done|].
    cbn. f_equal; [|by apply IH]. by apply app_inv_head in E.
  Qed.
  Lemma axis_lines_long l l' s : axis_lines l s -> axis_lines l' s -> 10 < length l -> 10 < length l' ->
    str <$> take 3 l = str <$> take 3 l' /\ str <$> drop (length l - 3) l = str <$> drop (length l' - 3) l'.
  Proof.
    intros H H' Hl Hl'. destruct H as [l s Hc _|a b c mid d e f Hm]; [lia|].
    remember (indented <$> [str a; str b; str c; letters "..."; str d; str e; str f]) as s eqn:E.
    destruct H' as [l' s Hc _|a' b' c' mid' d' e' f' Hm']; [lia|]. cbn [fmap list_fmap] in E. unfold indented in E.
    injection E as E1 E2 E3 E4 E5 E6.
    assert (forall (x y z : lab) m p q r, drop (length ([x; y; z] ++ m ++ [p; q; r]) - 3) ([x; y; z] ++ m ++ [p; q; r]) = [p; q; r]) as Hd.
    { intros x y z m p q r. rewrite app_assoc. rewrite (app_length (_ ++ _)). cbn [length]. rewrite Nat.add_sub. apply drop_app. }
    rewrite !Hd. cbn. by rewrite E1, E2, E3, E4, E5, E6.
  Qed.

  Lemma shows_axes y z t : one_line str y -> one_line str z -> larry_repr str repr y = Ok t -> larry_repr str repr z = Ok t ->
    repr (lx y) = repr (lx z) /\ Forall2 (fun l l' => exists s, axis_lines l s /\ axis_lines l' s) (llabel y) (llabel z).
  Proof.
    intros Hy Hz Ey Ez. destruct (larry_repr_shows y) as (t1 & E1 & S1). destruct (larry_repr_shows z) as (t2 & E2 & S2).
    assert (t1 = t) as -> by congruence. assert (t2 = t) as -> by congruence.
    destruct (shows_lines y z t Hy Hz S1 S2) as (Hr & ls & H1 & H2). split; [done|]. by apply (label_lines_same (llabel y) 0 (llabel z) ls).
  Qed.
  Lemma repr_long y z t : one_line str y -> one_line str z -> larry_repr str repr y = Ok t -> larry_repr str repr z = Ok t ->
    forall ax l l', llabel y !! ax = Some l -> llabel z !! ax = Some l' -> 10 < length l -> 10 < length l' ->
    str <$> take 3 l = str <$> take 3 l' /\ str <$> drop (length l - 3) l = str <$> drop (length l' - 3) l'.
  Proof.
    intros Hy Hz Ey Ez ax l l' El El' Hl Hl'. destruct (shows_axes y z t Hy Hz Ey Ez) as [_ H].
    destruct (Forall2_lookup_lr _ _ _ _ _ _ H El El') as (s & H1 & H2). by apply (axis_lines_long l l' s).
  Qed.
  Lemma repr_complete y z t : one_line str y -> one_line str z -> few_labels y -> few_labels z ->
    larry_repr str repr y = Ok t -> larry_repr str repr z = Ok t ->
    (fun l : list lab => str <$> l) <$> llabel y = (fun l : list lab => str <$> l) <$> llabel z /\ repr (lx y) = repr (lx z).
  Proof.
    intros Hy Hz Cy Cz Ey Ez. destruct (shows_axes y z t Hy Hz Ey Ez) as [Hr H]. split; [|done].
    unfold few_labels in *. revert Cy Cz. generalize (llabel y) (llabel z) H. clear. intros L L' H.
    induction H as [|l l' L L' (s & H1 & H2) H IH]; intros Cy Cz; [done|]. cbn. f_equal.
    - apply (axis_lines_short l l' s); [done|done|apply Cy; left|apply Cz; left].
    - apply IH; intros l0 ?; [apply Cy|apply Cz]; by right.
  Qed.
  Lemma repr_inj y z t : one_line str y -> one_line str z -> few_labels y -> few_labels z ->
    (forall l a l' b, l ∈ llabel y -> a ∈ l -> l' ∈ llabel z -> b ∈ l' -> str a = str b -> a = b) ->
    larry_repr str repr y = Ok t -> larry_repr str repr z = Ok t ->
    llabel y = llabel z /\ repr (lx y) = repr (lx z).
  Proof.
    intros Hy Hz Cy Cz Hinj Ey Ez. destruct (repr_complete y z t Hy Hz Cy Cz Ey Ez) as [H Hr]. split; [|done].
    revert Hinj H. generalize (llabel y) (llabel z). clear. intros L. induction L as [|l L IH]; intros [|l' L'] Hinj H; try done.
    cbn in H. injection H as Hl HL. f_equal.
    - assert (forall a b, a ∈ l -> b ∈ l' -> str a = str b -> a = b) as Hi.
      { intros a b Ha Hb. apply (Hinj l a l' b); [left|done|left|done]. }
      clear Hinj. revert l' Hl Hi. induction l as [|a l IHl]; intros [|b l'] Hl Hi; try done.
      cbn in Hl. injection Hl as Hab Hl. f_equal; [apply Hi; [left|left|done]|].
      apply IHl; [done|]. intros x x' Hx Hx'. apply Hi; by right.
    - apply IH; [|done]. intros l0 a l0' b ????. apply (Hinj l0 a l0' b); [by right|done|by right|done].
  Qed.
End show.
