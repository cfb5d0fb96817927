(** Properties C01-C05: label list functions (la/flabel.py, la/src/cflabel.pyx). *)
From Verif Require Import FlabelFacts.

(** C01: the indices map list1 onto list2; KeyError exactly if some element of
    list2 is not in list1. *)
Theorem C01_listmap_maps : forall (list1 list2 : list lab),
  (forall x, x ∈ list2 -> x ∈ list1) ->
  exists idx, listmap list1 list2 false = Ok idx /\ mapM (list1 !!.) idx = Some list2.
Proof. exact listmap_ok. Qed.
Example C01_example : listmap [LInt 5; LStr "a"; LInt 5] [LStr "a"; LInt 5; LStr "a"] false = Ok [1; 2; 1].
Proof. vm_compute. reflexivity. Qed.

Theorem C01_listmap_unmappable : forall (list1 list2 : list lab),
  ~ (forall x, x ∈ list2 -> x ∈ list1) -> listmap list1 list2 false = Err KeyError.
Proof. exact listmap_err. Qed.
Example C01_example_unmappable : listmap [LInt 5; LStr "a"] [LStr "a"; LInt 7] false = Err KeyError.
Proof. vm_compute. reflexivity. Qed.

Theorem C01_listmap_ignore : forall (list1 list2 : list lab),
  exists idx, listmap list1 list2 true = Ok idx /\
    mapM (list1 !!.) idx = Some (filter (fun x => x ∈ list1) list2).
Proof. exact listmap_ignore. Qed.
Example C01_example_ignore : listmap [LInt 5; LStr "a"] [LStr "a"; LInt 7; LInt 5] true = Ok [1; 0].
Proof. vm_compute. reflexivity. Qed.

(** C02: what listmap_fill returns. *)
Theorem C02_listmap_fill : forall (list1 list2 : list lab) fill index missing,
  listmap_fill list1 list2 fill = (index, missing) ->
  length index = length list2 /\
  (forall i x, list2 !! i = Some x -> x ∈ list1 ->
     exists p, index !! i = Some (Z.of_nat p) /\ list1 !! p = Some x) /\
  (forall i x, list2 !! i = Some x -> x ∉ list1 -> index !! i = Some fill) /\
  StronglySorted lt missing /\
  (forall i, i ∈ missing <-> exists x, list2 !! i = Some x /\ x ∉ list1).
Proof. exact listmap_fill_spec. Qed.
Example C02_example :
  listmap_fill [LInt 5; LStr "a"] [LStr "b"; LInt 5; LStr "c"; LStr "a"] (-7) = ([-7; 0; -7; 1]%Z, [0; 2]).
Proof. vm_compute. reflexivity. Qed.

(** C03: the Cython versions return what the Python versions return. *)
Theorem C03_listmap_same : forall (list1 list2 : list lab) ignore_unmappable,
  c_listmap list1 list2 ignore_unmappable = listmap list1 list2 ignore_unmappable.
Proof. exact c_listmap_eq. Qed.
Theorem C03_listmap_fill_same : forall (list1 list2 : list lab) fill,
  c_listmap_fill list1 list2 fill = Ok (listmap_fill list1 list2 fill).
Proof. exact c_listmap_fill_eq. Qed.
Example C03_example :
  c_listmap [LInt 5; LStr "a"] [LStr "a"; LInt 7] false = Err KeyError /\
  c_listmap [LInt 5; LStr "a"; LInt 5] [LStr "a"; LInt 7; LInt 5] true = Ok [1; 2] /\
  c_listmap_fill [LInt 5; LStr "a"] [LStr "b"; LInt 5] 9 = Ok ([9; 0]%Z, [0]).
Proof. vm_compute. done. Qed.

(** C04: the k-th tuple of the flattened label is the coordinate of the k-th
    element of the flattened data ([ravel] is numpy's C order position; F order
    is C order of the reversed axes). *)
Theorem C04_flattenlabel_order : forall (label : list (list lab)) k t,
  (exists l, flattenlabel label "C" = Ok l /\ (l !! k = Some t <->
     exists idx, labels_at label idx t /\ k = ravel (length <$> label) idx)) /\
  (exists l, flattenlabel label "F" = Ok l /\ (l !! k = Some t <->
     exists idx, labels_at label idx t /\ k = ravel (reverse (length <$> label)) (reverse idx))).
Proof.
  exact (fun label k t => conj
    (ex_intro _ _ (conj eq_refl (flattenlabel_C_lookup label k t)))
    (ex_intro _ _ (conj eq_refl (flattenlabel_F_lookup label k t)))).
Qed.
Theorem C04_flattenlabel_grid : forall (label : list (list lab)) order l,
  flattenlabel label order = Ok l ->
  length l = foldr (fun axis n => length axis * n) 1 label /\
  (forall t, t ∈ l <-> Forall2 (fun x axis => x ∈ axis) t label) /\
  (Forall NoDup label -> NoDup l).
Proof. exact flattenlabel_grid. Qed.
Theorem C04_flattenlabel_bad_order : forall (label : list (list lab)) order,
  flattenlabel label order = Err ValueError <-> order <> "C" /\ order <> "F".
Proof. exact flattenlabel_bad_order. Qed.
Example C04_example :
  flattenlabel [[LInt 0; LInt 1]; [LStr "a"; LStr "b"]] "C" =
    Ok [[LInt 0; LStr "a"]; [LInt 0; LStr "b"]; [LInt 1; LStr "a"]; [LInt 1; LStr "b"]] /\
  flattenlabel [[LInt 0; LInt 1]; [LStr "a"; LStr "b"]] "F" =
    Ok [[LInt 0; LStr "a"]; [LInt 1; LStr "a"]; [LInt 0; LStr "b"]; [LInt 1; LStr "b"]] /\
  flattenlabel [[LInt 0]] "A" = Err ValueError.
Proof. vm_compute. done. Qed.

(** C05: sorted-unique factorization. *)
Theorem C05_list2index : forall L idx u,
  list2index L = Ok (idx, u) ->
  StronglySorted lab_lt u /\ (forall x, x ∈ u <-> x ∈ L) /\ mapM (u !!.) idx = Some L.
Proof. exact list2index_spec. Qed.
Theorem C05_list2index_total : forall L,
  (forall a b, a ∈ L -> b ∈ L -> a = b \/ comparable a b = true) -> exists idx u, list2index L = Ok (idx, u).
Proof. exact (fun L H => list2index_ok L (proj2 (sortable_spec L) H)). Qed.
(** ... and with the order being a strict total order, [u] is the only such list. *)
Theorem C05_label_order_total :
  (forall a, ~ lab_lt a a) /\
  (forall a b c, lab_lt a b -> lab_lt b c -> lab_lt a c) /\
  (forall a b, lab_lt a b \/ a = b \/ lab_lt b a).
Proof. exact lab_lt_total_order. Qed.
Example C05_example :
  list2index [LStr "b"; LStr "ab"; LStr "b"; LStr "a"] =
    Ok ([2; 1; 2; 0], [LStr "a"; LStr "ab"; LStr "b"]) /\
  list2index [LStr "b"; LInt 1] = Err TypeError.
Proof. vm_compute. done. Qed.

Print Assumptions C01_listmap_maps.
Print Assumptions C01_listmap_unmappable.
Print Assumptions C01_listmap_ignore.
Print Assumptions C02_listmap_fill.
Print Assumptions C03_listmap_same.
Print Assumptions C03_listmap_fill_same.
Print Assumptions C04_flattenlabel_order.
Print Assumptions C04_flattenlabel_grid.
Print Assumptions C04_flattenlabel_bad_order.
Print Assumptions C05_list2index.
Print Assumptions C05_list2index_total.
Print Assumptions C05_label_order_total.
