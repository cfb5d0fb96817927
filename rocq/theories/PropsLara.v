(** Property C85: indexing a larry in an archive (the class lara of
    la/io.py). *)
From Verif Require Import LaraFacts.
From Verif Require Import PropsLarry PropsAlign PropsOps PropsNumeric PropsIndex PropsArchive.

(** C85: what is read is what the index selects from the archived larry, each
    cell with its own labels; exactly the forward indices that select something
    can be read, if a list, an array or a larry stands in a tuple. *)
Theorem C85_getitem_partial : forall f key y l ix g,
  load f (Some key) = Ok y -> valid y -> lara_open f key = Ok l ->
  Forall item_ok (index_items ix) -> complete y ix ->
  lara_getitem f l ix = Ok g <-> no_sequence ix /\ exists ss, h5_accepts (llabel y) (index_items ix) ss /\ picked y ss g.
Proof. exact lara_get. Qed.
Theorem C85_all : forall f key y l,
  load f (Some key) = Ok y -> valid y -> lara_open f key = Ok l -> ~ [] ∈ llabel y ->
  lara_getitem f l (XSlice slice_all) = Ok (GLar y).
Proof. exact lara_all. Qed.
(** An archived larry can be opened, and its attributes are those of the
    larry. *)
Theorem C85_open : forall f key y,
  load f (Some key) = Ok y -> exists l, lara_open f key = Ok l /\ la_key l = key /\ lara_larry f l = Ok y.
Proof. exact load_open. Qed.
(** What is not an archived larry cannot be opened. *)
Theorem C85_open_error : forall f key,
  (forall ms, h5_get f key <> Some (NGroup true ms)) -> lara_open f key = Err KeyError.
Proof. exact open_refused. Qed.
Theorem C85_attributes : forall f key y l,
  load f (Some key) = Ok y -> lara_open f key = Ok l ->
  la_label l = llabel y /\ lara_shape f l = Ok (lshape y) /\ lara_dtype f l = Ok (ldtype y) /\ lara_ndim f l = Ok (lndim y) /\
  lara_size f l = Ok (lsize y).
Proof. exact lara_attributes. Qed.
(** Assigning a scalar changes the selected cells of the archived larry and
    nothing else in the archive. *)
Theorem C85_setitem : forall f key y l ix v f',
  load f (Some key) = Ok y -> valid y -> lara_open f key = Ok l -> Forall not_larry (index_items ix) ->
  prun (lara_setitem l ix (SVal v)) f = (f', Ok ()) ->
  exists ss u z, h5_accepts (llabel y) (index_items ix) ss /\ store (ldtype y) v = Ok u /\ overwritten y ss (fun _ w => w = u) z /\
    load f' (Some key) = Ok z /\
    (forall k, ~ path_of key `prefix_of` path_of k -> ~ path_of k `prefix_of` path_of key -> load f' (Some k) = load f (Some k)) /\
    io_keys f' = io_keys f.
Proof. exact lara_set. Qed.
(** It is done in one step, and succeeds for all indices that can be read and
    for lists. *)
Theorem C85_setitem_total : forall f key y l ix v u ss,
  load f (Some key) = Ok y -> valid y -> lara_open f key = Ok l -> Forall not_larry (index_items ix) ->
  h5_accepts (llabel y) (index_items ix) ss -> bools_fit (lshape y) ix -> store (ldtype y) v = Ok u ->
  exists f', lara_setitem l ix (SVal v) f = ([f'], Ok ()).
Proof. exact lara_set_total. Qed.
Theorem C85_setitem_error : forall l ix value f e f', prun (lara_setitem l ix value) f = (f', Err e) -> f' = f.
Proof. exact lara_set_fails. Qed.
(** A larry cannot be assigned. *)
Theorem C85_set_larry_error : forall f key y l ix z,
  load f (Some key) = Ok y -> lara_open f key = Ok l ->
  (forall e, lara_getitem f l ix = Err e -> prun (lara_setitem l ix (SLarry z)) f = (f, Err e)) /\
  (forall z0, lara_getitem f l ix = Ok (GLar z0) ->
     prun (lara_setitem l ix (SLarry z)) f = (f, Err (if decide (llabel z0 = llabel z) then TypeError else IndexError))) /\
  (forall g, lara_getitem f l ix = Ok g -> (forall z0, g <> GLar z0) -> prun (lara_setitem l ix (SLarry z)) f = (f, Err AttributeError)).
Proof. exact lara_set_larry_error. Qed.
Theorem C85_set_larry : forall l ix z f, exists e, prun (lara_setitem l ix (SLarry z)) f = (f, Err e).
Proof. exact lara_set_larry. Qed.
(** Which error a list of positions or of bools is. *)
Theorem C85_list_error : forall f key y l zs a,
  load f (Some key) = Ok y -> lara_open f key = Ok l -> llabel y !! 0 = Some a ->
  (forall ls, mapM (py_get a) zs = Some ls -> NoDup ls -> lara_getitem f l (XList zs) = Err AttributeError) /\
  ((forall ls, mapM (py_get a) zs = Some ls -> ~ NoDup ls) -> lara_getitem f l (XList zs) = Err IndexError).
Proof. exact lara_list_error. Qed.
Theorem C85_bools_error : forall f key y l bs a,
  load f (Some key) = Ok y -> lara_open f key = Ok l -> llabel y !! 0 = Some a ->
  (forall i, bs !! i = Some true -> length a <= i -> lara_getitem f l (XBools bs) = Err IndexError) /\
  ((forall i, bs !! i = Some true -> i < length a) ->
   lshape y <> [length bs] -> lara_getitem f l (XBools bs) = Err TypeError).
Proof. exact lara_bools_error. Qed.
(** Of a larry without elements nothing is read by [:]. *)
Theorem C85_empty : forall f key y l g,
  load f (Some key) = Ok y -> valid y -> lara_open f key = Ok l -> [] ∈ llabel y ->
  lara_getitem f l (XSlice slice_all) <> Ok g.
Proof. exact lara_all_empty. Qed.

(** An archive with two larrys, one of them without elements. *)
Definition ex_file : node := (io_run empty_file [DPut "a" exc; DPut "g/b" exd; DPut "o" exo]).1.
Definition ex_lara : lara := Lara "a" (llabel exc).

(** A list works with the larry, but not with the lara. *)
Example C85_open_error_example :
  lara_open (NGroup false [("g"%string, NGroup false [("x"%string, NX (lx exd))])]) "g" = Err KeyError /\ lara_open ex_file "none" = Err KeyError.
Proof. split; by vm_compute. Qed.
Example C85_error_example :
  prun (lara_setitem ex_lara (XInt 0) (SLarry exd)) ex_file = (ex_file, Err IndexError) /\
  lara_getitem ex_file ex_lara (XList [0; 5]%Z) = Err IndexError /\ lara_getitem ex_file ex_lara (XList [0; 0]%Z) = Err IndexError /\
  lara_getitem ex_file ex_lara (XBools [true; false]) = Err TypeError /\
  lara_getitem ex_file ex_lara (XBools [true; false; true]) = Err IndexError.
Proof. split; [by vm_compute|]. by vm_compute. Qed.
Theorem C85_list_refuted : exists f key y l ix z,
  load f (Some key) = Ok y /\ valid y /\ lara_open f key = Ok l /\ larry_getitem y ix = Ok (GLar z) /\ valid z /\
  lara_getitem f l ix = Err AttributeError.
Proof.
  exists ex_file, "a"%string, exc, ex_lara, (XList [1]%Z),
    (Larry (Nda DInt (Arr [1; 2; 3] (VInt <$> [7; 8; 9; 10; 11; 12]%Z))) [[LStr "b"]; [LStr "x"; LStr "y"]; [LInt 7; LInt 9; LInt 5]]).
  split; [by vm_compute|]. split; [exact exc_valid|]. split; [by vm_compute|]. split; [by vm_compute|]. split; [solve_valid|by vm_compute].
Qed.
(** Of a larry without elements [:] gives nothing. *)
Theorem C85_empty_refuted : exists f key y l,
  load f (Some key) = Ok y /\ valid y /\ lara_open f key = Ok l /\ larry_getitem y (XSlice slice_all) = Ok (GLar y) /\
  lara_getitem f l (XSlice slice_all) = Err ValueError.
Proof.
  exists ex_file, "o"%string, exo, (Lara "o" (llabel exo)).
  split; [by vm_compute|]. split; [exact exo_valid|]. by vm_compute.
Qed.
(** A larry that can be assigned to a part of the larry cannot be assigned to
    that part of the lara. *)
Theorem C85_set_larry_refuted : exists f key y l ix z w,
  load f (Some key) = Ok y /\ valid y /\ lara_open f key = Ok l /\ larry_setitem y ix (SLarry z) = Ok w /\
  prun (lara_setitem l ix (SLarry z)) f = (f, Err TypeError).
Proof.
  exists ex_file, "a"%string, exc, ex_lara, (XTuple [IInt 1; IInt 0; ISlice slice_all]),
    (Larry (Nda DInt (Arr [3] (VInt <$> [0; 0; 0]%Z))) [[LInt 7; LInt 9; LInt 5]]),
    (Larry (Nda DInt (Arr [2; 2; 3] (VInt <$> [1; 2; 3; 4; 5; 6; 0; 0; 0; 10; 11; 12]%Z))) (llabel exc)).
  split; [by vm_compute|]. split; [exact exc_valid|]. by vm_compute.
Qed.
(** A lara does not notice that the larry was replaced: the new data come with
    the old labels. *)
Theorem C85_stale_refuted : exists f key l y f' z,
  lara_open f key = Ok l /\ archivable y /\ prun (io_setitem (Some key) (Some y)) f = (f', Ok ()) /\ load f' (Some key) = Ok y /\
  lara_getitem f' l (XSlice slice_all) = Ok (GLar z) /\ z <> y /\ ~ valid z.
Proof.
  exists ex_file, "a"%string, ex_lara, exd, (prun (io_setitem (Some "a"%string) (Some exd)) ex_file).1, (Larry (lx exd) (llabel exc)).
  split; [by vm_compute|]. split; [exact exd_archivable|]. split; [by vm_compute|]. split; [by vm_compute|]. split; [by vm_compute|].
  split; [by intros [=]|]. intros Hv. apply valid_ndim in Hv. done.
Qed.
Example C85_example :
  load ex_file (Some "a"%string) = Ok exc /\ lara_open ex_file "a" = Ok ex_lara /\
  lara_getitem ex_file ex_lara (XSlice slice_all) = Ok (GLar exc) /\
  lara_getitem ex_file ex_lara (XTuple [IInt 1; ISlice slice_all; IList [0; 2]%Z]) =
    Ok (GLar (Larry (Nda DInt (Arr [2; 2] (VInt <$> [7; 9; 10; 12]%Z))) [[LStr "x"; LStr "y"]; [LInt 7; LInt 5]])) /\
  lara_getitem ex_file ex_lara (XTuple [IInt 1; ISlice slice_all; IList [2; 0]%Z]) = Err TypeError /\
  lara_getitem ex_file ex_lara (XTuple [IInt (-1); IInt 0; IInt 2]) = Ok (GVal (VInt 9)) /\
  lara_getitem ex_file ex_lara (XInt 2) = Err IndexError /\
  let f := (prun (lara_setitem ex_lara (XTuple [ISlice slice_all; IInt 0; IBools [false; true; true]]) (SVal (VInt 0))) ex_file).1 in
  load f (Some "a"%string) = Ok (Larry (Nda DInt (Arr [2; 2; 3] (VInt <$> [1; 0; 0; 4; 5; 6; 7; 0; 0; 10; 11; 12]%Z))) (llabel exc)) /\
  load f (Some "g/b"%string) = Ok exd /\ io_keys f = ["a"; "g/b"; "o"]%string /\
  lara_getitem f (Lara "g/b" (llabel exd)) (XSlice slice_all) = Ok (GLar exd).
Proof. by vm_compute. Qed.

Print Assumptions C85_getitem_partial.
Print Assumptions C85_all.
Print Assumptions C85_open.
Print Assumptions C85_open_error.
Print Assumptions C85_attributes.
Print Assumptions C85_setitem.
Print Assumptions C85_setitem_total.
Print Assumptions C85_setitem_error.
Print Assumptions C85_set_larry_error.
Print Assumptions C85_set_larry.
Print Assumptions C85_list_error.
Print Assumptions C85_bools_error.
Print Assumptions C85_empty.
Print Assumptions C85_list_refuted.
Print Assumptions C85_empty_refuted.
Print Assumptions C85_set_larry_refuted.
Print Assumptions C85_stale_refuted.
