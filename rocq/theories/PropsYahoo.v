(** C76: tables of stock quotes (la/data/yahoo.py). *)
From Verif Require Import YahooFacts Misc PropsLarry PropsOps.

(** For all implementations of float(), int() and date(), and all pages:
    the histories of all tickers in one table.  Missing: repeated tickers,
    tickers without a day, infinite numbers. *)
Theorem C76_quotes_partial : forall float int date fetch hist tickers adjust,
  tickers <> [] -> NoDup tickers ->
  Forall (fun t => exists page, fetch t = Ok page /\ history_file float int date page (hist t)) tickers ->
  Forall (fun t => good_history (hist t)) tickers ->
  exists z, quotes float int date fetch tickers adjust = Ok z /\ table_with adjust hist tickers z.
Proof. exact quotes_table. Qed.
(** The adjusted prices of a day are in the proportion of the prices. *)
Theorem C76_proportion : forall q i p c,
  (i, Fin p) ∈ raw_items q -> i <> "volume"%string -> q_close q = Fin c -> c <> 0%Qc ->
  forall a n, q_adjclose q = Fin a -> (i, n) ∈ adjusted_items q -> exists r, n = Fin r /\ (r * c = p * a)%Qc.
Proof. exact adjusted_proportion. Qed.
(** A ticker given twice, although the same request with one of them succeeds. *)
Theorem C76_repeat_refuted : forall float int date fetch hist ts t ts' adjust d q i n,
  NoDup ts -> Forall (fun t => exists page, fetch t = Ok page /\ history_file float int date page (hist t)) ts ->
  Forall (fun t => good_history (hist t)) ts ->
  t ∈ ts -> (d, q) ∈ hist t -> (i, n) ∈ raw_items q -> n <> NaN ->
  quotes float int date fetch (ts ++ t :: ts') adjust = Err ValueError.
Proof. exact quotes_repeat. Qed.
(** A ticker without a day between the dates spoils the whole request. *)
Theorem C76_no_day_refuted : forall float int date fetch hist ts t ts' adjust page,
  NoDup ts -> Forall (fun t => exists page, fetch t = Ok page /\ history_file float int date page (hist t)) ts ->
  Forall (fun t => good_history (hist t)) ts ->
  fetch t = Ok page -> history_file float int date page [] ->
  quotes float int date fetch (ts ++ t :: ts') adjust = Err TypeError.
Proof. exact quotes_no_data. Qed.
Theorem C76_fetch : forall float int date fetch hist ts t ts' adjust e,
  NoDup ts -> Forall (fun t => exists page, fetch t = Ok page /\ history_file float int date page (hist t)) ts ->
  Forall (fun t => good_history (hist t)) ts ->
  fetch t = Err e -> quotes float int date fetch (ts ++ t :: ts') adjust = Err e.
Proof. exact quotes_fetch. Qed.
Theorem C76_no_tickers_refuted : forall float int date fetch adjust, quotes float int date fetch [] adjust = Err AttributeError.
Proof. done. Qed.

(** Two pages. *)
Definition ex_date (y m d : Z) : option Z := Some ((y * 12 + m) * 31 + d)%Z.
Fixpoint digits (n : Z) (s : string) : option Z :=
  match s with
  | EmptyString => Some n
  | String c s' => if decide (c = nl) then Some n else
      let k := (Z.of_nat (nat_of_ascii c) - 48)%Z in if decide (0 <= k <= 9)%Z then digits (n * 10 + k)%Z s' else None
  end.
Definition ex_int : string -> option Z := digits 0%Z.
Definition ex_num (s : string) : option num := num_of_Z <$> ex_int s.
Definition page (ls : list string) : text := ls ≫= (fun s => letters s ++ [nl]).
Definition ex_web (t : string) : res text :=
  (if decide (t = "msft") then
     Ok (page ["Date,Open,High,Low,Close,Volume,Adj Close"; "2010-10-05,30,40,20,20,700,10"; "2010-10-01,10,16,8,12,500,6"])
   else if decide (t = "aapl") then
     Ok (page ["Date,Open,High,Low,Close,Volume,Adj Close"; "2010-10-04,2,4,2,4,100,2"; "<!-- end -->"])
   else if decide (t = "none") then Ok (page ["Date"]) else Err OSError)%string.
Example C76_example :
  quotes ex_num ex_int ex_date ex_web ["msft"; "aapl"]%string true =
    Ok (Larry (Nda DFloat (Arr [2; 5; 3]
      [VFloat NaN; vf 1; VFloat NaN; VFloat NaN; vf 2; VFloat NaN; VFloat NaN; vf 2; VFloat NaN; VFloat NaN; vf 1; VFloat NaN; VFloat NaN; vf 100; VFloat NaN;
       vf 5; VFloat NaN; vf 15; vf 6; VFloat NaN; vf 10; vf 8; VFloat NaN; vf 20; vf 4; VFloat NaN; vf 10; vf 500; VFloat NaN; vf 700]))
      [[LStr "aapl"; LStr "msft"]; [LStr "open"; LStr "close"; LStr "high"; LStr "low"; LStr "volume"];
       [LDate 748031; LDate 748034; LDate 748035]]) /\
  quotes ex_num ex_int ex_date ex_web ["msft"; "msft"]%string true = Err ValueError /\
  quotes ex_num ex_int ex_date ex_web ["msft"; "none"]%string true = Err TypeError /\
  quotes ex_num ex_int ex_date ex_web ["msft"; "gone"]%string true = Err OSError.
Proof. by_compute. Qed.
(** The page of the example is such a page. *)
Definition ex_aapl : history := [(748034%Z, Day (num_of_Z 2) (num_of_Z 4) (num_of_Z 4) (num_of_Z 2) 100 (num_of_Z 2))].
Example C76_page :
  good_history ex_aapl /\ exists page, ex_web "aapl"%string = Ok page /\ history_file ex_num ex_int ex_date page ex_aapl.
Proof.
  split.
  - split; [done|]. split; [apply NoDup_singleton|]. intros d q i n Hq Hi. apply elem_of_list_singleton in Hq. injection Hq as -> ->.
    unfold raw_items in Hi. repeat (apply elem_of_cons in Hi as [Hi|Hi]; [injection Hi as -> ->; done|]). by apply elem_of_nil in Hi.
  - eexists. split; [by vm_compute|]. eapply parse_history_inv; [by vm_compute|]. refine (bool_decide_unpack _ _). by vm_compute.
Qed.

Print Assumptions C76_quotes_partial.
Print Assumptions C76_proportion.
Print Assumptions C76_repeat_refuted.
Print Assumptions C76_no_day_refuted.
Print Assumptions C76_fetch.
Print Assumptions C76_no_tickers_refuted.
