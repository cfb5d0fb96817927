(** Property C81: the text that shows a larry (la/deflarry.py:4983-5006). *)
From Verif Require Import SpecFacts ReprFacts.
From Verif Require Import PropsLarry PropsAlign PropsOps PropsCsv.

(** Every larry has a text: the labels of each axis below its name, all of them
    or the first and last three, then the array. *)
Theorem C81_shows : forall str repr y, exists t, larry_repr str repr y = Ok t /\ shows str repr y t.
Proof. exact larry_repr_shows. Qed.
(** Two larrys with the same text have the same texts of labels, if these have
    no line feeds and no axis has more than ten. *)
Theorem C81_same_text : forall str repr y z t, one_line str y -> one_line str z -> few_labels y -> few_labels z ->
  larry_repr str repr y = Ok t -> larry_repr str repr z = Ok t ->
  (fun l : list lab => str <$> l) <$> llabel y = (fun l : list lab => str <$> l) <$> llabel z /\ repr (lx y) = repr (lx z).
Proof. exact repr_complete. Qed.
(** So the labels are the same, if different labels have different texts. *)
Theorem C81_same_labels : forall str repr y z t, one_line str y -> one_line str z -> few_labels y -> few_labels z ->
  (forall l a l' b, l ∈ llabel y -> a ∈ l -> l' ∈ llabel z -> b ∈ l' -> str a = str b -> a = b) ->
  larry_repr str repr y = Ok t -> larry_repr str repr z = Ok t ->
  llabel y = llabel z /\ repr (lx y) = repr (lx z).
Proof. exact repr_inj. Qed.
(** Of longer axes the first and the last three labels are the same. *)
Theorem C81_long : forall str repr y z t, one_line str y -> one_line str z -> larry_repr str repr y = Ok t -> larry_repr str repr z = Ok t ->
  forall ax l l', llabel y !! ax = Some l -> llabel z !! ax = Some l' -> 10 < length l -> 10 < length l' ->
  str <$> take 3 l = str <$> take 3 l' /\ str <$> drop (length l - 3) l = str <$> drop (length l' - 3) l'.
Proof. exact repr_long. Qed.

(** A larry of eleven elements, with one label in the middle to choose. *)
Definition exeleven (b : Z) : larry :=
  Larry (Nda DInt (Arr [11] (replicate 11 (VInt 0)))) [LInt <$> [0; 1; 2; 3; 4; b; 6; 7; 8; 9; 10]%Z].
(** Not everything is shown: different larrys have the same text. *)
Theorem C81_long_refuted : exists y z, valid y /\ valid z /\ llabel y <> llabel z /\
  forall str repr, larry_repr str repr y = larry_repr str repr z.
Proof. exists (exeleven 5), (exeleven 50). split; [solve_valid|]. split; [solve_valid|]. split; [done|]. intros str repr. reflexivity. Qed.
Definition ex_text (a : lab) : text := letters (ex_str a).
(** The labels 1 and '1' look the same. *)
Theorem C81_types_refuted : exists y z, valid y /\ valid z /\ few_labels y /\ few_labels z /\ llabel y <> llabel z /\
  forall repr, larry_repr ex_text repr y = larry_repr ex_text repr z.
Proof.
  exists (Larry (Nda DInt (Arr [1] [VInt 0])) [[LInt 1]]), (Larry (Nda DInt (Arr [1] [VInt 0])) [[LStr "1"]]).
  split; [solve_valid|]. split; [solve_valid|].
  split; [by intros l ->%elem_of_list_singleton; cbn; lia|]. split; [by intros l ->%elem_of_list_singleton; cbn; lia|].
  split; [done|]. intros repr. reflexivity.
Qed.
(** So do a line feed in one label and a line feed in the next. *)
Theorem C81_newline_refuted : exists y z, valid y /\ valid z /\ few_labels y /\ few_labels z /\ llabel y <> llabel z /\
  (forall l a, l ∈ llabel y -> a ∈ l -> exists s, a = LStr s) /\ (forall l a, l ∈ llabel z -> a ∈ l -> exists s, a = LStr s) /\
  forall repr, larry_repr ex_text repr y = larry_repr ex_text repr z.
Proof.
  pose (gap := word (nl :: letters "    ")).
  exists (Larry (Nda DInt (Arr [2] [VInt 0; VInt 0])) [[LStr ("a" ++ gap ++ "b"); LStr "c"]]),
         (Larry (Nda DInt (Arr [2] [VInt 0; VInt 0])) [[LStr "a"; LStr ("b" ++ gap ++ "c")]]).
  split; [solve_valid|]. split; [solve_valid|].
  split; [by intros l ->%elem_of_list_singleton; cbn; lia|]. split; [by intros l ->%elem_of_list_singleton; cbn; lia|].
  split; [done|].
  split; [intros l a ->%elem_of_list_singleton; rewrite !elem_of_cons; intros [-> |[-> |?%elem_of_nil]]; [eauto..|done]|].
  split; [intros l a ->%elem_of_list_singleton; rewrite !elem_of_cons; intros [-> |[-> |?%elem_of_nil]]; [eauto..|done]|].
  intros repr. reflexivity.
Qed.

Example C81_example :
  larry_repr ex_text (fun _ => letters "array(...)") ex2 =
    Ok (letters "label_0" ++ nl :: letters "    x" ++ nl :: letters "    y" ++ nl ::
        letters "label_1" ++ nl :: letters "    7" ++ nl :: letters "    9" ++ nl :: letters "    5" ++ nl ::
        letters "x" ++ nl :: letters "array(...)") /\
  (t ← larry_repr ex_text (fun _ => letters "array(...)") (exeleven 5);
   Ok (length (filter (fun c => c = nl) t))) = Ok 9 /\
  one_line ex_text ex2 /\ few_labels ex2 /\
  larry_repr ex_text (fun _ => []) ex2 <> larry_repr ex_text (fun _ => []) (Larry (lx ex2) [[LStr "x"; LStr "y"]; [LInt 7; LInt 9; LInt 6]]).
Proof.
  split; [reflexivity|]. split; [reflexivity|]. split.
  { unfold one_line. intros l a Hl Ha Hn. revert l Hl Ha.
    assert (forall l, l ∈ llabel ex2 -> Forall (fun a => nl ∉ ex_text a) l) as H.
    { apply Forall_forall. refine (bool_decide_unpack _ _). by vm_compute. }
    intros l Hl Ha. specialize (H l Hl). rewrite Forall_forall in H. by apply (H a Ha). }
  split; [|discriminate].
  unfold few_labels. apply Forall_forall. refine (bool_decide_unpack _ _). by vm_compute.
Qed.

Print Assumptions C81_shows.
Print Assumptions C81_same_text.
Print Assumptions C81_same_labels.
Print Assumptions C81_long.
Print Assumptions C81_long_refuted.
Print Assumptions C81_types_refuted.
Print Assumptions C81_newline_refuted.
