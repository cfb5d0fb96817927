(** la/external/prettytable.py, Python 2.  Simplification: the entries of a table
    are strings (the code calls their [split]). *)
From Verif Require Export SpecTable Csv Yahoo Archive.

(** [map(None, *ls)] for two or more lists. *)
Definition longest {A} (ls : list (list A)) : list (list (option A)) :=
  (fun i => (fun l => l !! i) <$> ls) <$> seq 0 (max_list (length <$> ls)).
(** [rowWrapper]: la/external/prettytable.py:29-31.  [map(None, l)] of one list is
    the list, so that an only entry falls apart into characters; without a list
    it is a TypeError. *)
Definition row_wrapper (wrap : text -> text) (row : list text) : res (list (list text)) :=
  match row with
  | [] => Err TypeError
  | [item] => Ok ((fun s : text => (fun c : ascii => [c]) <$> (s : list ascii)) <$> split_at nl (wrap item))
  | _ => Ok ((fun items : list (option text) => default [] <$> items) <$> longest ((fun item : text => split_at nl (wrap item)) <$> row))
  end.
(** [maxWidths]: la/external/prettytable.py:35-37.  The only row of a table falls
    apart in the same way; in others a missing entry is [None], of four
    characters. *)
Definition max_widths (phys : list (list text)) : res (list nat) :=
  match phys with
  | [] => Err TypeError
  | [row] => mapR (fun s : text => match s with [] => Err ValueError | _ => Ok 1 end) row
  | _ => Ok ((fun col => max_list ((fun o : option text => from_option length 4 o) <$> col)) <$> longest phys)
  end.
(** [str.ljust], [str.rjust], [str.center]. *)
Definition justify_text (j : justification) (s : text) (w : nat) : text :=
  let pad := w - length s in
  let left := match j with
              | ToLeft => 0
              | ToRight => pad
              | ToCenter => Nat.div2 pad + (if Nat.odd pad && Nat.odd w then 1 else 0)
              end in
  replicate left sp ++ s ++ replicate (pad - left) sp.
(** [{...}[justify.lower()]]: la/external/prettytable.py:41. *)
Definition lower_char (c : ascii) : ascii :=
  let n := nat_of_ascii c in if (65 <=? n)%nat && (n <=? 90)%nat then ascii_of_nat (n + 32) else c.
Definition justify_of (s : string) : res justification :=
  let s := word (lower_char <$> letters s) in
  if decide (s = "left"%string) then Ok ToLeft
  else if decide (s = "right"%string) then Ok ToRight
  else if decide (s = "center"%string) then Ok ToCenter
  else Err KeyError.
(** [headerChar * n]. *)
Definition times (s : text) (n : Z) : text := concat (replicate (Z.to_nat n) s).
(** [print(s, file=output)]. *)
Definition println (s : text) : text := s ++ [nl].

(** [indent]: la/external/prettytable.py:12-50. *)
Definition draw_row (delim prefix postfix : text) (j : justification) (ws : list nat) (row : list text) : text :=
  println (prefix ++ join_with delim (zip_with (justify_text j) row ws) ++ postfix).
Fixpoint draw_rows (draw : list text -> text) (bar : text) (separate header : bool) (logical : list (list (list text))) : text :=
  match logical with
  | [] => []
  | phys :: logical =>
      concat (draw <$> phys) ++ (if separate || header then println bar else []) ++
      draw_rows draw bar separate false logical
  end.
Definition indent (rows : list (list text)) (header : bool) (char delim : text) (justify : string) (separate : bool)
    (prefix postfix : text) (wrap : text -> text) : res text :=
  logical ← mapR (row_wrapper wrap) rows;
  ws ← max_widths (concat logical);
  let bar := times char (Z.of_nat (length prefix + length postfix + sum_list ws) +
                         Z.of_nat (length delim) * (Z.of_nat (length ws) - 1)) in
  j ← justify_of justify;
  Ok ((if separate then println bar else []) ++
      draw_rows (draw_row delim prefix postfix j ws) bar separate header logical).

(** [wrap_always]: la/external/prettytable.py:77-81.  Simplification: the width is
    positive. *)
Definition wrap_always (t : text) (width : positive) : text :=
  let w := Pos.to_nat width in
  join_with [nl] ((fun i => take (w * (i + 1) - w * i) (drop (w * i) t)) <$> seq 0 ((length t + (w - 1)) / w)).
(** [wrap_onspace]: la/external/prettytable.py:54-67. *)
Definition last_line (t : text) : text := default [] (last (split_at nl t)).
Definition first_line (t : text) : text := default [] (head (split_at nl t)).
Definition wrap_word (width : nat) (line word : text) : text :=
  line ++ [if decide (width <= length (last_line line) + length (first_line word)) then nl else sp] ++ word.
Definition wrap_onspace (t : text) (width : nat) : text :=
  match split_at sp t with
  | [] => []
  | word :: words => fold_left (wrap_word width) words word
  end.
(** [wrap_onspace_strict]: la/external/prettytable.py:70-74: the runs of at least
    [width] characters that are not white space are cut. *)
Definition cut_run (width : positive) (run : text) : text :=
  if decide (Pos.to_nat width <= length run) then wrap_always run width else run.
Fixpoint cut_runs (width : positive) (run t : text) : text :=
  match t with
  | [] => cut_run width run
  | c :: t => if decide (white c) then cut_run width run ++ c :: cut_runs width [] t
              else cut_runs width (run ++ [c]) t
  end.
Definition wrap_onspace_strict (t : text) (width : positive) : text :=
  wrap_onspace (cut_runs width [] t) (Pos.to_nat width).

(** [IO.__repr__]: la/io.py:205-218.  The text of a dtype and of a shape are
    parameters. *)
Definition io_x (f : node) (key : string) : res nda :=
  n ← of_opt KeyError (h5_get f key);
  match n with
  | NGroup _ ms => match dict_get ms "x"%string with Some (NX x) => Ok x | _ => Err KeyError end
  | _ => Err KeyError
  end.
Definition io_repr (str_dtype : dtype -> string) (str_shape : list nat -> string) (f : node) : res text :=
  keys ← py_sorted (LStr <$> io_keys f);
  rows ← mapR (fun k => match k with
                        | LStr key => x ← io_x f key;
                                      Ok [letters key; letters (str_dtype (nd_dtype x)); letters (str_shape (nd_shape x))]
                        | _ => Err TypeError
                        end) keys;
  indent ((letters <$> ["larry"; "dtype"; "shape"]%string) :: rows) true (letters "-") (letters "  ") "left" false [] [] (fun t => t).
