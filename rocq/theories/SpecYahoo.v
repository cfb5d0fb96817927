(** Specification of tables of stock quotes. *)
From Verif Require Export SpecCsv.

(** What Yahoo reports for a stock on a day. *)
Record day := Day { q_open : num; q_close : num; q_high : num; q_low : num; q_volume : Z; q_adjclose : num }.
Global Instance day_eq_dec : EqDecision day.
Proof. solve_decision. Defined.
(** Days by date. *)
Definition history := list (Z * day).

(** The items of a table and their values on a day; adjusting multiplies the
    prices by the factor that turns the close into the adjusted close. *)
Definition raw_items (q : day) : list (string * num) :=
  [("open", q_open q); ("close", q_close q); ("high", q_high q); ("low", q_low q);
   ("volume", num_of_Z (q_volume q)); ("adjclose", q_adjclose q)]%string.
Definition adjusted_items (q : day) : list (string * num) :=
  let factor := num_div (q_adjclose q) (q_close q) in
  [("open", num_mul (q_open q) factor); ("close", q_adjclose q); ("high", num_mul (q_high q) factor);
   ("low", num_mul (q_low q) factor); ("volume", num_of_Z (q_volume q))]%string.
Definition items_of (adjust : bool) : day -> list (string * num) := if adjust then adjusted_items else raw_items.
Definition item_names (adjust : bool) : list string :=
  ["open"; "close"; "high"; "low"; "volume"]%string ++ if adjust then [] else ["adjclose"%string].

(** [z] is the table of the histories of some tickers: sorted tickers by items
    by sorted dates, NaN where a ticker has no day. *)
Definition table_with (adjust : bool) (hist : string -> history) (tickers : list string) (z : larry) : Prop :=
  valid z /\ ldtype z = DFloat /\ exists ts ds,
    llabel z = [LStr <$> ts; LStr <$> item_names adjust; LDate <$> ds] /\
    StronglySorted lab_lt (LStr <$> ts) /\ ts ≡ₚ tickers /\
    StronglySorted Z.lt ds /\ (forall d, d ∈ ds <-> exists t, t ∈ tickers /\ d ∈ (hist t).*1) /\
    (forall t d q i n, t ∈ tickers -> (d, q) ∈ hist t -> (i, n) ∈ items_of adjust q ->
       cell z [LStr t; LStr i; LDate d] = Some (VFloat n)) /\
    (forall t d i, t ∈ tickers -> d ∈ ds -> d ∉ (hist t).*1 -> i ∈ item_names adjust ->
       cell z [LStr t; LStr i; LDate d] = Some (VFloat NaN)).

(** One day per date, numbers that are not infinite. *)
Definition good_history (h : history) : Prop :=
  h <> [] /\ NoDup h.*1 /\ forall d q i n, (d, q) ∈ h -> (i, n) ∈ raw_items q -> is_inf n = false.

(** The lines of a text, with their line feeds. *)
Inductive lines_of : text -> list text -> Prop :=
  | lines_empty : lines_of [] []
  | lines_last s : s <> [] -> nl ∉ s -> lines_of s [s]
  | lines_more s t ls : nl ∉ s -> lines_of t ls -> lines_of (s ++ nl :: t) ((s ++ [nl]) :: ls).
(** The line of a day: date, open, high, low, close, volume, adjusted close. *)
Section csv.
  Context (float : string -> option num) (int : string -> option Z) (date : Z -> Z -> Z -> option Z).
  Definition day_line (s : text) (p : Z * day) : Prop :=
    exists sd so sh sl sc sv sa, splits ","%char s [sd; so; sh; sl; sc; sv; sa] /\
    (exists ty tm td y m d, splits "-"%char sd [ty; tm; td] /\
       int (word ty) = Some y /\ int (word tm) = Some m /\ int (word td) = Some d /\ date y m d = Some p.1) /\
    float (word so) = Some (q_open p.2) /\ float (word sh) = Some (q_high p.2) /\ float (word sl) = Some (q_low p.2) /\
    float (word sc) = Some (q_close p.2) /\ int (word sv) = Some (q_volume p.2) /\ float (word sa) = Some (q_adjclose p.2).
  (** Lines of days; lines that have not seven fields are skipped. *)
  Inductive day_lines : list text -> history -> Prop :=
    | days_end : day_lines [] []
    | days_day s p ls h : day_line s p -> day_lines ls h -> day_lines (s :: ls) (p :: h)
    | days_skip s fs ls h : splits ","%char s fs -> length fs <> 7 -> day_lines ls h -> day_lines (s :: ls) h.
  (** A file with a line of titles and the days. *)
  Definition history_file (t : text) (h : history) : Prop :=
    exists title ls, lines_of t (title :: ls) /\ day_lines ls h.
End csv.
