(** Text files: tocsv, fromcsv and tofile of la/deflarry.py, on the csv module
    of Python 2.7 (the writer and the state machine of the reader of _csv.c). *)
From Verif Require Export SpecCsv Convert.

(** * csv.writer with the excel dialect *)

(** A field: quoted if it contains the delimiter, a quote or a line break, or
    if it is empty and the only field of its row ([only]); quotes are doubled.
    Simplification: texts contain no character of code 0 (at which Python 2 cuts
    them off). *)
Definition special (d c : ascii) : bool := bool_decide (c = d \/ c = quote \/ c = cr \/ c = nl).
Definition write_field (d : ascii) (only : bool) (t : text) : text :=
  let body := t ≫= (fun c => if decide (c = quote) then [c; c] else [c]) in
  if existsb (special d) t || only && bool_decide (t = []) then quote :: body ++ [quote] else body.
(** The separator between the parts. *)
Fixpoint join_with (sep : text) (l : list text) : text :=
  match l with
  | [] => []
  | [t] => t
  | t :: l => t ++ sep ++ join_with sep l
  end.
Definition write_row (d : ascii) (fields : list text) : text :=
  join_with [d] (write_field d (bool_decide (length fields = 1)) <$> fields) ++ [cr; nl].
Definition write_rows (d : ascii) (rows : list (list text)) : text := rows ≫= write_row d.

(** * csv.reader *)

Inductive rstate := StartRecord | StartField | InField | InQuoted | QuoteInQuoted | EatCrnl.
Record rd := Rd { rd_state : rstate; rd_field : text; rd_fields : list text; rd_rows : list (list text) }.
Definition save_field (s : rstate) (r : rd) : rd := Rd s [] (rd_fields r ++ [rd_field r]) (rd_rows r).
Definition add_char (s : rstate) (c : ascii) (r : rd) : rd := Rd s (rd_field r ++ [c]) (rd_fields r) (rd_rows r).
Definition goto (s : rstate) (r : rd) : rd := Rd s (rd_field r) (rd_fields r) (rd_rows r).
Definition newline (c : ascii) : bool := bool_decide (c = cr \/ c = nl).
(** [parse_process_char] for a character. *)
Definition start_field (d c : ascii) (r : rd) : rd :=
  if newline c then save_field EatCrnl r
  else if decide (c = quote) then goto InQuoted r
  else if decide (c = d) then save_field StartField r
  else add_char InField c r.
Definition process (d c : ascii) (r : rd) : res rd :=
  if decide (c = nul) then Err CsvError else
  match rd_state r with
  | StartRecord => if newline c then Ok (goto EatCrnl r) else Ok (start_field d c r)
  | StartField => Ok (start_field d c r)
  | InField =>
      Ok (if newline c then save_field EatCrnl r
          else if decide (c = d) then save_field StartField r
          else add_char InField c r)
  | InQuoted => Ok (if decide (c = quote) then goto QuoteInQuoted r else add_char InQuoted c r)
  | QuoteInQuoted =>
      Ok (if decide (c = quote) then add_char InQuoted c r
          else if decide (c = d) then save_field StartField r
          else if newline c then save_field EatCrnl r
          else add_char InField c r)
  | EatCrnl => if newline c then Ok r else Err CsvError
  end.
(** The same at the end of a line of the file; a complete record is returned. *)
Definition end_line (r : rd) : rd :=
  let r := match rd_state r with
           | StartRecord | InQuoted => r
           | StartField | InField | QuoteInQuoted => save_field StartRecord r
           | EatCrnl => goto StartRecord r
           end in
  match rd_state r with
  | StartRecord => Rd StartRecord [] [] (rd_rows r ++ [rd_fields r])
  | _ => r
  end.
(** Lines of the file end behind a line feed. *)
Definition feed (d : ascii) (r : rd) (c : ascii) : res rd :=
  r ← process d c r;
  Ok (if decide (c = nl) then end_line r else r).
(** At the end of the file the last line ends, if it has a character, and an
    open quoted field is closed. *)
Definition end_file (t : text) (r : rd) : rd :=
  let r := match last t with Some c => if decide (c = nl) then r else end_line r | None => r end in
  match rd_state r with
  | InQuoted => Rd StartRecord [] [] (rd_rows r ++ [rd_fields r ++ [rd_field r]])
  | _ => r
  end.
Definition read_rows (d : ascii) (t : text) : res (list (list text)) :=
  r ← foldM (feed d) (Rd StartRecord [] [] []) t;
  Ok (rd_rows (end_file t r)).

(** * tocsv and fromcsv *)

(** The delimiter has to be one character. *)
Definition one_char (s : string) : res ascii :=
  match letters s with [c] => Ok c | _ => Err TypeError end.
(** [y.tocsv(filename, delimiter)]: la/deflarry.py:4704-4759; the content of the
    file.  [str] is Python's str of a label, [repr] the text of an element. *)
Definition larry_tocsv (str : lab -> string) (repr : val -> string) (y : larry) (delimiter : string) : res text :=
  d ← one_char delimiter;
  rows ← larry_totuples y;
  Ok (write_rows d ((fun p : list lab * val => ((fun a => letters (str a)) <$> p.1) ++ [letters (repr p.2)]) <$> rows)).
(** [x[index] = xs] for texts [xs]: la/util/misc.py:211; [float] is Python's
    conversion, None where it raises ValueError.  [larry.fromtuples] of rows of
    texts: la/deflarry.py:4550-4558; [zip] cuts the rows to the shortest; without
    labels a 0d array is indexed. *)
Definition fromtuples_text (float : string -> option num) (rows : list (list text)) : res larry :=
  if decide (rows = []) then Ok empty_larry
  else
    let cols := py_zip rows in
    xs ← of_opt IndexError (last cols);
    let labels := (fun col : list text => (fun t => LStr (word t)) <$> col) <$> take (length cols - 1) cols in
    if decide (labels = []) then Err IndexError else
    vs ← of_opt ValueError (mapM (fun t => float (word t)) xs : option (list num));
    p ← fromlists (VFloat <$> vs : list val) labels;
    larry_of p.
(** Universal newlines: what Python 3 makes of a file opened with mode 'r'. *)
Fixpoint universal (t : text) : text :=
  match t with
  | [] => []
  | c :: t' =>
      if decide (c = cr) then nl :: match t' with c' :: t'' => if decide (c' = nl) then universal t'' else universal t' | [] => [] end
      else c :: universal t'
  end.
(** [larry.fromcsv(filename, delimiter, skiprows)]: la/deflarry.py:4761-4830.
    [py3] says whether Python 3 runs, where readers have no method [next]. *)
Definition larry_fromcsv (py3 : bool) (float : string -> option num) (t : text) (delimiter : string) (skiprows : nat) : res larry :=
  d ← one_char delimiter;
  if py3 && bool_decide (skiprows <> 0) then Err AttributeError else
  rows ← read_rows d (if py3 then universal t else t);
  if decide (length rows < skiprows) then Err StopIteration else
  fromtuples_text float (drop skiprows rows).

(** * tofile *)

(** [y.tofile(file, delimiter)]: la/deflarry.py:4831-4930; what is written. *)
Definition larry_tofile (str : lab -> string) (repr : val -> string) (y : larry) (delimiter : string) : res text :=
  let d := letters delimiter in
  match llabel y with
  | [l] =>
      parts ← (mapR (fun i =>
        a ← of_opt IndexError (l !! i);
        v ← of_opt IndexError (aget (larr y) [i]);
        Ok (join_with d [letters (str a); letters (repr v) ++ [nl]])) (seq 0 (lsize y)) : res (list text));
      Ok (concat parts)
  | [l0; l1] =>
      head ← (mapR (fun i => a ← of_opt IndexError (l1 !! i); Ok (letters (str a))) (seq 0 (length l1)) : res (list text));
      parts ← (mapR (fun i =>
        a ← of_opt IndexError (l0 !! i);
        vs ← (mapR (fun j => v ← of_opt IndexError (aget (larr y) [i; j]); Ok (letters (repr v))) (seq 0 (length l1)) : res (list text));
        Ok (join_with d (letters (str a) :: vs) ++ [nl])) (seq 0 (length l0)) : res (list text));
      Ok (d ++ join_with d head ++ [nl] ++ concat parts)
  | _ => Err ValueError
  end.
