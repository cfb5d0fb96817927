(** la/data/yahoo.py, and the reading of Yahoo's files in
    la/external/matplotlib.py.  Python's [float()], [int()] and
    [datetime.date(y, m, d).toordinal()] are parameters; so is the web:
    [fetch ticker] is the text of the page for a ticker and the dates asked for
    (fetch_historical_yahoo). *)
From Verif Require Export SpecYahoo Larry Align Index.

(** [text.split(d)] for a character. *)
Fixpoint split_at (d : ascii) (t : text) : list text :=
  match t with
  | [] => [[]]
  | c :: t' =>
      if decide (c = d) then [] :: split_at d t'
      else match split_at d t' with p :: ps => (c :: p) :: ps | [] => [[c]] end
  end.
(** [fh.readlines()]. *)
Fixpoint readlines (t : text) : list text :=
  match t with
  | [] => []
  | c :: t' =>
      if decide (c = nl) then [c] :: readlines t'
      else match readlines t' with p :: ps => (c :: p) :: ps | [] => [[c]] end
  end.

Section yahoo.
  Context (float : string -> option num) (int : string -> option Z) (date : Z -> Z -> Z -> option Z).
  Definition py_float (t : text) : res num := of_opt ValueError (float (word t)).
  Definition py_int (t : text) : res Z := of_opt ValueError (int (word t)).

  (** The loop of [parse_yahoo_historical]: la/external/matplotlib.py:41-52. *)
  Definition parse_line (line : text) : res (list (Z * day)) :=
    match split_at ","%char line with
    | [v0; v1; v2; v3; v4; v5; v6] =>
        parts ← mapR py_int (split_at "-"%char v0);
        d ← match parts with [y; m; d] => of_opt ValueError (date y m d) | _ => Err TypeError end;
        open ← py_float v1;
        high ← py_float v2;
        low ← py_float v3;
        close ← py_float v4;
        volume ← py_int v5;
        aclose ← py_float v6;
        Ok [(d, Day open close high low volume aclose)]
    | _ => Ok []
    end.
  (** [parse_yahoo_historical(fh)]: la/external/matplotlib.py:27-53; the two
      lists as one list of pairs. *)
  Definition parse_yahoo (t : text) : res history :=
    r ← mapR parse_line (drop 1 (readlines t));
    Ok (concat r).

  (** [np.array(data).T]: la/data/yahoo.py:116.  Simplification: a volume that
      does not fit into 64 bits is a float like the others. *)
  Definition day_row (q : day) : list val :=
    [VFloat (q_open q); VFloat (q_close q); VFloat (q_high q); VFloat (q_low q);
     VFloat (num_of_Z (q_volume q)); VFloat (q_adjclose q)].
  Definition yahoo_items : list lab :=
    LStr <$> ["open"; "close"; "high"; "low"; "volume"; "adjclose"]%string.
  Definition quote_larry (h : history) : res larry :=
    x ← of_opt ValueError (transpose (Arr [length h; 6] (h.*2 ≫= day_row)));
    make (Nda DFloat x) (Some [yahoo_items; LDate <$> h.*1]).

  (** [quotes_historical_yahoo(ticker, ...)] and the loop of [quotes]:
      la/external/matplotlib.py:81-103, la/data/yahoo.py:112-122.  Without a
      day the first returns None, which cannot be unpacked. *)
  Definition quotes_step (fetch : string -> res text) (lar : option larry) (ticker : string) : res (option larry) :=
    t ← fetch ticker;
    h ← parse_yahoo t;
    if decide (h = []) then Err TypeError else
    qlar ← quote_larry h;
    qlar ← insertaxis qlar (Some 0%Z) (LStr ticker);
    match lar with
    | None => Ok (Some qlar)
    | Some lar => lar ← larry_merge lar qlar false; Ok (Some lar)
    end.

  (** The adjustment, la/data/yahoo.py:124-129, for one ticker and date: every
      statement works on all tickers and dates alike. *)
  Definition adjust_day (l : list val) : list val :=
    match l with
    | [VFloat o; VFloat c; VFloat h; VFloat w; v; VFloat a] =>
        let scale := num_div a c in
        let o := num_mul o scale in
        let c := a in
        let h := num_mul h scale in
        let w := num_mul w scale in
        [VFloat o; VFloat c; VFloat h; VFloat w; v; VFloat a]
    | _ => l
    end.
  Definition adjust_quotes (lar : larry) : res larry :=
    x ← of_opt IndexError (along adjust_day (larr lar) 1);
    g ← larry_getitem (Larry (Nda (ldtype lar) x) (llabel lar))
          (XTuple [ISlice slice_all; ISlice (Slice None (Some (-1)%Z) None)]);
    match g with GLar z => Ok z | _ => Err TypeError end.

  (** [quotes(tickers, date1, date2, adjust)]: la/data/yahoo.py:8-131. *)
  Definition quotes (fetch : string -> res text) (tickers : list string) (adjust : bool) : res larry :=
    lar ← foldM (quotes_step fetch) None tickers;
    match lar with
    | None => Err AttributeError            (* None.sortaxis *)
    | Some lar =>
        lar ← sortaxis lar (Some (-1)%Z) false;
        if adjust then adjust_quotes lar else Ok lar
    end.
End yahoo.
