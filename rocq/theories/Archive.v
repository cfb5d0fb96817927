(** Archives of larrys in HDF5 files: la/io.py, with Python 2 (in Python 3 h5py
    does not store arrays of strings).  Every change of a file is an atomic
    step; the states between the steps are the states that an exception or
    a crash can leave behind. *)
From Verif Require Export SpecArchive Larry.
From Coq Require Import Ascii DecimalString.
From stdpp Require Import gmap stringmap.

(** * Programs with steps *)

(** A program gives the states after each step and a result. *)
Definition prog (S A : Type) := S -> list S * res A.
Definition final {S} (s : S) (t : list S) : S := default s (last t).
Definition pret {S A} (a : A) : prog S A := fun s => ([], Ok a).
Definition praise {S A} (e : exn) : prog S A := fun s => ([], Err e).
Definition pget {S} : prog S S := fun s => ([], Ok s).
Definition pput {S} (s' : S) : prog S unit := fun s => ([s'], Ok ()).
Definition pbind {S A B} (m : prog S A) (k : A -> prog S B) : prog S B := fun s =>
  let '(t1, r) := m s in
  match r with
  | Ok a => let '(t2, r2) := k a (final s t1) in (t1 ++ t2, r2)
  | Err e => (t1, Err e)
  end.
Definition plift {S A} (r : res A) : prog S A := fun s => ([], r).
Notation "x <- m ;; k" := (pbind m (fun x => k)) (at level 100, m at next level, right associativity).
Fixpoint pfor {S X} (f : X -> prog S unit) (l : list X) : prog S unit :=
  match l with
  | [] => pret ()
  | x :: l' => _ <- f x;; pfor f l'
  end.
Definition prun {S A} (m : prog S A) (s : S) : S * res A := let '(t, r) := m s in (final s t, r).

(** * HDF5 objects *)

(** The attribute [datetime_type] of a label. *)
Inductive dtkind := NotDatetime | KDate | KTime | KDatetime.
(** The arrays labels are stored in: no elements, integers, strings, records
    of integers, or the rows of a 2d array. *)
Inductive larray := AEmpty | AInts (l : list Z) | AStrs (l : list string) | ARecs (l : list (list Z)) | ARows (l : list (list lab)).
(** Datasets, for the data and the label of a larry, and groups with the
    attribute [larry] and named members.  Other attributes and datasets are not
    modelled. *)
Inductive node :=
  | NX (x : nda)
  | NLabel (a : larray) (dt : option dtkind)
  | NGroup (attr : bool) (members : pydict string node).

Definition dict_del {V} (k : string) (d : pydict string V) : pydict string V := filter (fun p => p.1 <> k) d.
Fixpoint node_get (n : node) (path : list string) : option node :=
  match path with
  | [] => Some n
  | k :: path' => match n with NGroup _ ms => c ← dict_get ms k; node_get c path' | _ => None end
  end.
Fixpoint node_alter (g : node -> option node) (n : node) (path : list string) : option node :=
  match path with
  | [] => g n
  | k :: path' =>
      match n with
      | NGroup a ms => c ← dict_get ms k; c' ← node_alter g c path'; Some (NGroup a (dict_set k c' ms))
      | _ => None
      end
  end.
(** A new member; an old one with the name is an error. *)
Definition add_member (name : string) (c : node) (n : node) : option node :=
  match n with
  | NGroup a ms => match dict_get ms name with None => Some (NGroup a (dict_set name c ms)) | Some _ => None end
  | _ => None
  end.
Definition set_larry (n : node) : option node := match n with NGroup _ ms => Some (NGroup true ms) | _ => None end.
Definition set_kind (dt : dtkind) (n : node) : option node := match n with NLabel a _ => Some (NLabel a (Some dt)) | _ => None end.
Definition del_member (name : string) (n : node) : option node :=
  match n with NGroup a ms => Some (NGroup a (dict_del name ms)) | _ => None end.

(** Paths: HDF5 ignores empty components and ".". *)
Fixpoint split_slash (s : string) : list string :=
  match s with
  | EmptyString => [""%string]
  | String c s' =>
      match split_slash s' with
      | [] => []
      | w :: ws => if decide (c = slash) then ""%string :: w :: ws else String c w :: ws
      end
  end.
Definition path_of (key : string) : list string := filter (fun w => w <> ""%string /\ w <> "."%string) (split_slash key).
Definition h5_get (f : node) (key : string) : option node := if decide (key = ""%string) then None else node_get f (path_of key).
(** [str(i)]. *)
Definition str_nat (i : nat) : string := NilEmpty.string_of_uint (Nat.to_uint i).

(** [_is_archived_larry(obj)]: la/io.py:713-723.  Simplification: a group named
    'x' in the place of the data is not an error. *)
Definition is_archived (n : node) : bool :=
  match n with
  | NGroup true ms =>
      match dict_get ms "x"%string with
      | Some (NX x) => forallb (fun i => match dict_get ms (str_nat i) with Some _ => true | None => false end) (seq 0 (nd_ndim x))
      | _ => false
      end
  | _ => false
  end.

(** * Labels *)

(** Numpy strings lose NUL characters at the end. *)
Fixpoint strip_nul (s : string) : string :=
  match s with
  | EmptyString => EmptyString
  | String c s' => match strip_nul s' with
                   | EmptyString => if decide (c = "000"%char) then EmptyString else String c EmptyString
                   | s'' => String c s''
                   end
  end.
Definition is_int64 (z : Z) : bool := bool_decide (- 2 ^ 63 <= z < 2 ^ 63)%Z.
(** [_list2array(x)]: la/io.py:659-683, with datetime2tuple and time2tuple
    (738-749), together with the refusal of h5py to store an object array.
    Simplification: integers of more than 64 bits are always refused. *)
Definition list2array (x : list lab) : res (larray * dtkind) :=
  match x with
  | [] => Ok (AEmpty, NotDatetime)
  | a :: _ =>
      if forallb (fun i => bool_decide (lab_kind i = lab_kind a)) x then
        match a with
        | LInt _ => zs ← mapR (fun i => match i with LInt z => if is_int64 z then Ok z else Err TypeError | _ => Err TypeError end) x;
                    Ok (AInts zs, NotDatetime)
        | LStr _ => ss ← mapR (fun i => match i with LStr s => Ok (strip_nul s) | _ => Err TypeError end) x;
                    Ok (AStrs ss, NotDatetime)
        | LDate _ => ds ← mapR (fun i => match i with LDate d => Ok d | _ => Err TypeError end) x;
                     Ok (AInts ds, KDate)
        | LTime _ _ _ _ _ =>
            ts ← mapR (fun i => match i with LTime h m s us _ => Ok [h; m; s; us] | _ => Err TypeError end) x;
            Ok (ARecs ts, KTime)
        | LDatetime _ _ _ _ _ _ _ _ =>
            ts ← mapR (fun i => match i with LDatetime y mo d h m s us _ => Ok [y; mo; d; h; m; s; us] | _ => Err TypeError end) x;
            Ok (ARecs ts, KDatetime)
        | LTup t =>
            rows ← mapR (fun i => match i with LTup u => if decide (length u = length t) then Ok u else Err TypeError | _ => Err TypeError end) x;
            Ok (ARows rows, NotDatetime)
        end
      else Err TypeError
  end.
(** [g.size]. *)
Definition lsize_of (a : larray) : nat :=
  match a with
  | AEmpty => 0
  | AInts l => length l
  | AStrs l => length l
  | ARecs l => length l
  | ARows l => length (concat l)
  end.
(** The elements as labels: la/io.py:646-653.  The rows of a 2d array become
    lists, which no larry accepts as labels (TypeError in [load]). *)
Definition decode (a : larray) (dt : dtkind) : res (list lab) :=
  match a, dt with
  | AInts l, NotDatetime => Ok (LInt <$> l)
  | AInts l, KDate => Ok (LDate <$> l)
  | AStrs l, NotDatetime => Ok (LStr <$> l)
  | ARecs l, KTime => mapR (fun r => match r with [h; m; s; us] => Ok (LTime h m s us None) | _ => Err TypeError end) l
  | ARecs l, KDatetime =>
      mapR (fun r => match r with [y; mo; d; h; m; s; us] => Ok (LDatetime y mo d h m s us None) | _ => Err TypeError end) l
  | _, _ => Err TypeError
  end.
Definition load_axis (n : node) : res (list lab) :=
  match n with
  | NLabel a dt =>
      if decide (lsize_of a = 0) then Ok []
      else dt ← of_opt KeyError dt; decode a dt
  | _ => Err AttributeError
  end.
(** [_load_label(file, key)]: la/io.py:635-657, given the group of the larry. *)
Definition load_label (n : node) : res (list (list lab)) :=
  match n with
  | NGroup _ ms =>
      match dict_get ms "x"%string with
      | Some (NX x) => mapR (fun i => g ← of_opt KeyError (dict_get ms (str_nat i)); load_axis g) (seq 0 (nd_ndim x))
      | _ => Err KeyError
      end
  | _ => Err KeyError
  end.

(** * The archive functions *)

(** Change the object at a path. *)
Definition h5_alter (e : exn) (g : node -> option node) (path : list string) : prog node unit := fun f =>
  match node_alter g f path with
  | Some f' => ([f'], Ok ())
  | None => ([], Err e)
  end.
(** [_create_nested_groups(f, path)]: la/io.py:725-736. *)
Fixpoint create_nested (done todo : list string) : prog node unit :=
  match todo with
  | [] => pret ()
  | k :: todo' =>
      f <- pget;;
      _ <- match node_get f (done ++ [k]) with
           | None => h5_alter RuntimeError (add_member k (NGroup false [])) done
           | Some (NGroup _ _) => pret ()
           | Some _ => praise ValueError
           end;;
      create_nested (done ++ [k]) todo'
  end.
(** [save(file, lar, key)]: la/io.py:372-453.  [None] is a key that is not a
    str and a value that is not a larry. *)
Definition save_label (path : list string) (p : nat * list lab) : prog node unit :=
  a <- plift (list2array p.2);;
  _ <- h5_alter RuntimeError (add_member (str_nat p.1) (NLabel a.1 None)) path;;
  h5_alter RuntimeError (set_kind a.2) (path ++ [str_nat p.1]).
Definition save (lar : option larry) (key : option string) : prog node unit :=
  match lar, key with
  | None, _ | _, None => praise TypeError
  | Some y, Some key =>
      let path := path_of key in
      _ <- create_nested [] path;;
      f <- pget;;
      _ <- plift (of_opt KeyError (h5_get f key));;
      _ <- h5_alter RuntimeError set_larry path;;
      _ <- (if decide (ldtype y = DObj) then praise TypeError
            else h5_alter RuntimeError (add_member "x"%string (NX (lx y))) path);;
      pfor (save_label path) (zip (seq 0 (lndim y)) (llabel y))
  end.
(** [load(file, key)]: la/io.py:455-518. *)
Definition load (f : node) (key : option string) : res larry :=
  match key with
  | None => Err TypeError
  | Some key =>
      n ← of_opt KeyError (h5_get f key);
      if is_archived n then
        label ← load_label n;
        match n with
        | NGroup _ ms =>
            match dict_get ms "x"%string with
            | Some (NX x) => make x (Some label)
            | _ => Err KeyError
            end
        | _ => Err KeyError
        end
      else Err KeyError
  end.
(** [delete(file, key)]: la/io.py:520-572. *)
Definition h5_delete (key : option string) : prog node unit :=
  match key with
  | None => praise TypeError
  | Some key =>
      f <- pget;;
      n <- plift (of_opt KeyError (h5_get f key));;
      if is_archived n then
        match last (path_of key) with
        | Some name => h5_alter KeyError (del_member name) (take (length (path_of key) - 1) (path_of key))
        | None => praise KeyError
        end
      else praise KeyError
  end.
(** [archive_directory(file)]: la/io.py:621-631.  Simplification: the order of
    the names is that of their creation. *)
Fixpoint visit (prefix : string) (n : node) : list string :=
  match n with
  | NGroup _ ms =>
      concat (map (fun p => let name := (prefix ++ p.1)%string in
                            (if is_archived p.2 then [name] else []) ++ visit (name ++ "/")%string p.2) ms)
  | _ => []
  end.
Definition archive_directory (f : node) : list string := visit "" f.

(** * The class IO *)

(** [io.keys()]: la/io.py:119-121. *)
Definition io_keys (f : node) : list string := archive_directory f.
(** [key in io]: la/io.py:200-203; the same for [has_key] (146-148). *)
Definition io_contains (f : node) (key : string) : bool := bool_decide (key ∈ io_keys f).
(** [len(io)]: la/io.py:160-161. *)
Definition io_len (f : node) : nat := length (io_keys f).
(** [io[key] = value]: la/io.py:176-195. *)
Definition io_setitem (key : option string) (value : option larry) : prog node unit :=
  match key, value with
  | None, _ | _, None => praise TypeError
  | Some k, Some y =>
      f <- pget;;
      _ <- (match f with
            | NGroup _ ms => if decide (k ∈ ms.*1) then h5_delete key else pret ()
            | _ => pret ()
            end);;
      save value key
  end.
(** [del io[key]]: la/io.py:197-198. *)
Definition io_delitem (key : option string) : prog node unit := h5_delete key.
(** [io.clear()]: la/io.py:150-155. *)
Definition io_clear : prog node unit := f <- pget;; pfor (fun k => io_delitem (Some k)) (io_keys f).
(** [io.values()] and [io.items()], loaded: la/io.py:123-129. *)
Definition io_values (f : node) : res (list larry) := mapR (fun k => load f (Some k)) (io_keys f).
(** [io[key]]: the label is taken from the archive and the data are those
    that the lara refers to (la/io.py:163-174, 255-337); they are given here as
    a larry.  Indexing a lara is in [Lara]. *)
Definition io_getitem (f : node) (key : option string) : res larry :=
  match key with
  | None => Err TypeError
  | Some key =>
      n ← of_opt KeyError (h5_get f key);
      if is_archived n then
        label ← load_label n;
        match n with
        | NGroup _ ms =>
            match dict_get ms "x"%string with
            | Some (NX x) => Ok (Larry x label)
            | _ => Err KeyError
            end
        | _ => Err KeyError
        end
      else Err KeyError
  end.

(** The empty archive, and sequences of operations. *)
Definition empty_file : node := NGroup false [].
Definition io_op (o : dict_op) : prog node unit :=
  match o with
  | DPut k y => io_setitem (Some k) (Some y)
  | DDel k => io_delitem (Some k)
  | DClear => io_clear
  end.
Fixpoint io_run (f : node) (os : list dict_op) : node * list (res unit) :=
  match os with
  | [] => (f, [])
  | o :: os' => let '(f', r) := prun (io_op o) f in let '(f'', rs) := io_run f' os' in (f'', r :: rs)
  end.

(** * repack *)

(** Files by name. *)
Notation fs := (gmap string node).
(** [f1.copy(key, f2)]. *)
Definition fs_copy (name : string) (p : string * node) : prog fs unit := fun s =>
  match s !! name with
  | Some f => match add_member p.1 p.2 f with Some f' => ([<[name := f']> s], Ok ()) | None => ([], Err RuntimeError) end
  | None => ([], Err OSError)
  end.
(** [h5py.File(name)] makes a new file if there is none. *)
Definition fs_open (name : string) : prog fs node := fun s =>
  match s !! name with
  | Some f => ([], Ok f)
  | None => ([<[name := empty_file]> s], Ok empty_file)
  end.
Definition fs_rename (old new : string) : prog fs unit := fun s =>
  match s !! old with
  | Some f => ([<[new := f]> (delete old s)], Ok ())
  | None => ([], Err OSError)
  end.
Definition fs_remove (name : string) : prog fs unit := fun s =>
  match s !! name with
  | Some _ => ([delete name s], Ok ())
  | None => ([], Err OSError)
  end.
(** [repack(file)] of a file name: la/io.py:574-608.  [r1] and [r2] are the
    results of [randstring(4)]. *)
Definition repack (r1 r2 : string) (filename1 : string) : prog fs unit :=
  f1 <- fs_open filename1;;
  let filename2 := (filename1 ++ "_repack_tmp_" ++ r1)%string in
  _ <- fs_open filename2;;
  _ <- match f1 with NGroup _ ms => pfor (fs_copy filename2) ms | _ => praise OSError end;;
  let filename_tmp := (filename1 ++ "_repack_rename_tmp_" ++ r2)%string in
  _ <- fs_rename filename1 filename_tmp;;
  _ <- fs_rename filename2 filename1;;
  fs_remove filename_tmp.
