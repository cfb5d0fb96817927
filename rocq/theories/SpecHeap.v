(** Sharing of memory: specification for Heap.v. *)
From Verif Require Export Heap.

(** The parts of memory: a buffer (its dtype), an element of a buffer, a list
    of labels, a list of such lists, a larry object. *)
Inductive part := PBuf (b : nat) | PCell (b i : nat) | PList (i : nat) | POuter (o : nat) | PObj (p : nat).
Inductive content := CDtype (dt : dtype) | CVal (v : val) | CLabels (l : list lab) | CLists (is : list nat) | CLarry (ob : hobj).
Definition content_of (h : heap) (x : part) : option content :=
  match x with
  | PBuf b => (fun d => CDtype d.1) <$> h_bufs h !! b
  | PCell b i => d ← h_bufs h !! b; CVal <$> d.2 !! i
  | PList i => CLabels <$> h_lists h !! i
  | POuter o => CLists <$> h_outers h !! o
  | PObj p => CLarry <$> h_objs h !! p
  end.

(** The parts a larry consists of. *)
Definition arr_part (a : harr) (x : part) : Prop :=
  x = PBuf (a_buf a) \/ exists i, i ∈ data (a_pos a) /\ x = PCell (a_buf a) i.
Definition part_of (h : heap) (p : nat) (x : part) : Prop :=
  exists ob, h_objs h !! p = Some ob /\
    (x = PObj p \/ x = POuter (o_label ob) \/
     (exists is i, h_outers h !! o_label ob = Some is /\ i ∈ is /\ x = PList i) \/
     arr_part (o_x ob) x).
(** The parts of a result. *)
Definition part_of_result (h : heap) (r : hval) (x : part) : Prop :=
  match r with
  | HLarry q => part_of h q x
  | HNd a => arr_part a x
  | HScalar _ => False
  end.

(** Everything that was there is there and has not changed. *)
Definition unchanged (h h' : heap) : Prop :=
  forall x c, content_of h x = Some c -> content_of h' x = Some c.
(** Nothing of the result was there before. *)
Definition own (h h' : heap) (r : hval) : Prop :=
  forall x, part_of_result h' r x -> content_of h x = None.

(** The calls documented to work in place. *)
Definition in_place (c : call) : option nat :=
  match c with
  | CSet i _ _ | CFill i _ | CSetitem i _ _ | CSetmask i _ _ | CLixSet i _ _
  | CShuffle _ i _ | CShufflelabel _ i _ => Some i
  | _ => None
  end.
(** Calls that write to the larrys they are given although they are not
    documented to. *)
Definition may_write (c : call) : bool :=
  match c with
  | CMerge _ _ _ => true
  | CBinaryop _ _ _ _ _ None None => false
  | CBinaryop _ _ _ _ _ _ _ => true
  | _ => false
  end.
(** Calls whose result can share memory with an argument. *)
Definition may_share (c : call) : bool :=
  match c with
  | CGetitem _ (XBools _ | XLarry _) => false
  | CGetitem _ _ | CPull _ _ _ | CSqueeze _ | CLixGet _ _ | CMerge _ _ _ => true
  | _ => false
  end.
(** The larrys a call is given. *)
Definition args (c : call) : list nat :=
  match c with
  | CMake _ _ | CFromlist _ | CFromtuples _ | CFromdict _ | CLrange _ _ _ _ _ | CEmpty _ _ _
  | CFillNew _ _ _ _ | CRand _ _ _ | CMakeDtype _ _ _ | CFromcsv _ _ _ _ _ => []
  | CMorphLike i j | CMerge i j _ | CArith _ i j | CLogic _ i j | CCompare _ i j
  | CGroupRanking i j _ | CGroupMean i j _ | CGroupMedian i j _ | CSetmask i j _
  | CAlign i j _ _ | CBinaryop _ i j _ _ _ _ => [i; j]
  | CAlignAxis is _ _ | CStack _ _ is => is
  | CCopy i | CSet i _ _ | CFill i _ | CMaplabel i _ _ | CTake i _ _ | CKeepLabel i _ _ | CPull i _ _
  | CLag i _ _ | CFlipaxis i _ | CT i | CSwapaxes i _ _ | CSqueeze i | CInsertaxis i _ _ | CMorph i _ _
  | CSortaxis i _ _ | CNanReplace i _ | CIsmissing i | CArithArr _ i _ | CArithScalar _ i _
  | CRarithArr _ i _ | CRarithScalar _ i _ | CLogicArr _ i _ | CLogicScalar _ i _ | CCompareArr _ i _
  | CCompareScalar _ i _ | CNeg i | CAbs i | CSign i | CIsnan i | CIsfinite i | CIsinf i | CInvert i
  | CCum _ i _ | CClip i _ _ | CReduce _ i _ | CStd _ i _ _ | Session.CProd i _ | CLastrank i _
  | CVacuum i _ | CCutMissing i _ _ | CPush i _ _ | CRanking _ i _ _ | CQuantile _ i _ _
  | CDemean i _ | CDemedian i _ | CZscore _ i _ | CMovingsumForward i _ _ _ _ | CMoveFunc _ _ i _ _ _
  | CMoveMedian _ i _ _ _ | CMoveRanking _ i _ _ _ | CGetitem i _ | CSetitem i _ _ | CLixGet i _
  | CLixSet i _ _ | CShuffle _ i _ | CShufflelabel _ i _ | CFlatten i _ | CUnflatten i
  | CPanel i | CCov i | CSortby _ i _ _ _ | CSplit i _ _ _ | CPos i | CUfunc _ i | CPower _ i _
  | CGeometricMean _ _ i _ _ | CLastrankDecay _ i _ _ | CKeepX i _ _ _ | CMove _ i _ _ | CAstype i _ => [i]
  end.

(** No element of a buffer and no list of labels occurs twice in the larry. *)
Definition tidy (h : heap) (p : nat) : Prop :=
  exists ob is, h_objs h !! p = Some ob /\ h_outers h !! o_label ob = Some is /\
    NoDup (data (a_pos (o_x ob))) /\ NoDup is.
(** The larry object [p] has the value [y]. *)
Definition has (h : heap) (p : nat) (y : larry) : Prop := read_larry h p = Some y /\ tidy h p.
(** Two larrys share nothing. *)
Definition apart (h : heap) (p q : nat) : Prop := forall x, part_of h p x -> ~ part_of h q x.
(** No two of the larrys share anything. *)
Definition separate (h : heap) (ps : list nat) : Prop :=
  forall i j p q, i <> j -> ps !! i = Some p -> ps !! j = Some q -> apart h p q.
