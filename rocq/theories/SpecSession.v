(** When a call keeps larrys well formed: specification for Session.v. *)
From Verif Require Export Session SpecOps.

(** Numpy arrays handed in by the user are complete, functions that stand for
    parts of numpy do what these do, key words are distinct.  Beyond that the
    following calls are left out, because they can make ill formed larrys:
    [maplabel] with a function that maps two labels of an axis to one,
    [squeeze] of a larry all of whose axes have length one, an array that does
    not fit into the larry it is combined with, comparing strings with
    numbers, and joins that skip an axis in [binaryop]. *)
Definition fine (env : list larry) (c : call) : Prop :=
  match c with
  | CMake x _ | CMakeDtype x _ _ => nda_wf x
  | CMaplabel i func axis =>
      forall y ax l, env !! i = Some y -> axis_selected y axis ax -> llabel y !! ax = Some l ->
      forall a b, a ∈ l -> b ∈ l -> func a = func b -> a = b
  | CSqueeze i => forall y, env !! i = Some y -> exists n, n ∈ lshape y /\ n <> 1
  | CArithArr _ i a | CRarithArr _ i a | CLogicArr _ i a | CCompareArr _ i a =>
      nda_wf a /\ forall y, env !! i = Some y -> fits (nd_shape a) (lshape y)
  | CCompare _ i j => forall y z, env !! i = Some y -> env !! j = Some z -> SpecOps.same_kind (ldtype y) (ldtype z)
  | CMoveFunc layout _ _ _ _ _ | CMoveMedian layout _ _ _ _ | CMoveRanking layout _ _ _ _ => good_layout layout
  | CBinaryop _ _ j join _ _ _ => forall z js, env !! j = Some z -> joins_are (lndim z) join js -> JSkip ∉ js
  | CStack _ names _ => NoDup names
  | CEmpty f _ _ | CFillNew _ f _ _ | CRand f _ _ => exists dt, array_source dt f
  | _ => True
  end.
(** Every call of a program is fine when its turn comes. *)
Fixpoint fine_run (env : list larry) (p : list call) : Prop :=
  match p with
  | [] => True
  | c :: p' => fine env c /\ forall env', exec env c = Ok env' -> fine_run env' p'
  end.
