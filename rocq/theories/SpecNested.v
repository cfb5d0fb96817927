(** Larrys in groups of an archive: keys with slashes. *)
From Verif Require Export SpecArchive.

(** The key of a path. *)
Definition key_of (p : list string) : string := String.concat "/" p.
Definition good_path (p : list string) : Prop := p <> [] /\ Forall flat p.
(** No path leads through another. *)
Definition antichain (K : list (list string)) : Prop := forall p q, p ∈ K -> q ∈ K -> p `prefix_of` q -> p = q.
(** Operations with the keys of some paths. *)
Definition keyed (K : list (list string)) (k : string) : Prop := exists p, p ∈ K /\ k = key_of p.
Definition nested_op (K : list (list string)) (o : dict_op) : Prop :=
  match o with DPut k y => keyed K k /\ archivable y | DDel k => keyed K k | DClear => True end.
(** Only keys without a slash are assigned to again. *)
Fixpoint puts_new (d : ldict) (os : list dict_op) : Prop :=
  match os with
  | [] => True
  | o :: os' => match o with DPut k _ => d k = None \/ flat k | _ => True end /\ puts_new (dict_step d o).1 os'
  end.
