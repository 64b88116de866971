(** Specification vocabulary for what an account's own instructions do to what it is due. *)
From Coq Require Import ZArith List Bool Permutation.
From Verif Require Import Base Nodes OrderTree BookSide Heap Market OpenOrders Order Book Instructions
  Logs SpecBook SpecFees SpecOrder SpecLedger SpecEvents SpecSystem SpecControl SpecMatch SpecPersist SpecTrade SpecLogs SpecExit.
Import ListNotations.
Open Scope Z_scope.

(** ** What the matches of one order bring its sender, account [k] *)
(** The taker's side of a match. *)
Definition taken_base (m : market) (f : fill_event) : Z :=
  match fe_taker_side f with Bid => fe_qty f * bls m | Ask => - (fe_qty f * bls m) end.
Definition taken_quote (m : market) (f : fill_event) : Z :=
  match fe_taker_side f with Bid => - fill_quote m f | Ask => fill_quote m f end.
Definition with_others (k : Z) (M : list fill_event) : list fill_event := filter (fun f => negb (fe_maker f =? k)) M.
Definition with_self (k : Z) (M : list fill_event) : list fill_event := filter (fun f => fe_maker f =? k) M.
(** A match of an order of [k] on side [sd] that takes no worse price than [lim]. *)
Definition taken_by (k : Z) (sd : side) (lim : option Z) (f : fill_event) : Prop :=
  fe_taker f = k /\ fe_taker_side f = sd /\ 1 <= fe_qty f /\ accepts sd lim (fe_price f).
(** Trading with others: lots and price, and the taker's fee on the sum, rounded up. *)
Definition deal_base (m : market) (k : Z) (M : list fill_event) : Z := sumZ (map (taken_base m) (with_others k M)).
Definition deal_quote (m : market) (k : Z) (M : list fill_event) : Z :=
  sumZ (map (taken_quote m) (with_others k M)) - taker_pays m (sumZ (map (fill_quote m) (with_others k M))).
(** Trading with itself: the fee an own bid has locked is not given back unless the bid is
    pegged to the oracle, ... *)
Definition self_fee (m : market) (f : fill_event) : Z :=
  if side_eqb (fill_side f) Bid && negb (fill_pegged f) then maker_pays m (fill_quote m f) else 0.
Definition self_cost (m : market) (k : Z) (M : list fill_event) : Z := sumZ (map (self_fee m) (with_self k M)).
(** ... and it is locked rounded up. *)
Definition self_rounding (m : market) (k : Z) (M : list fill_event) : Z :=
  if 0 <? maker_fee m then Z.of_nat (length (filter (fun f => side_eqb (fill_side f) Bid) (with_self k M))) else 0.

(** ** Instructions of the account itself *)
(** Those that neither create the account, nor close it, nor pay it out. *)
Definition carries_on (i : instr) : bool :=
  match i with ICreateAccount _ _ _ _ | ICloseAccount _ _ | ISettle _ _ _ _ _ | ISettleExpired _ _ _ _ _ => false | _ => true end.
Definition base_in (s s' : sys) : Z :=
  let v := c_base_vault (m_cfg (w_mkt (s_w s))) in in_wallet s' v - in_wallet s v.
Definition quote_in (s s' : sys) : Z :=
  let v := c_quote_vault (m_cfg (w_mkt (s_w s))) in in_wallet s' v - in_wallet s v.

(** Account [k], before [a] and after [a'], sends [i]; [deals] has the matches of each order sent. *)
Record carried (k : Z) (e : env) (s : sys) (i : instr) (a : ooa) (s' : sys) (a' : ooa) (deals : list (list fill_event)) : Prop := {
  (* the matches are those of the orders sent, on their sides and within their limits, ... *)
  cr_deals : concat deals = [] \/ exists oracle, oracle_input (w_mkt (s_w s)) e = Ok oracle /\
    Forall2 (fun x M => Forall (taken_by k (fst x) (snd x)) M) (wanted oracle i) deals;
  (* ... and each is reported or waits in the queue, beside what waited before *)
  cr_fills : Permutation (log_fills (exec_logs e s i) ++ map (report (w_mkt (s_w s))) (waiting_fills (s_w s')))
    (map (report (w_mkt (s_w s))) (waiting_fills (s_w s) ++ concat deals));
  cr_base : base_due k a' (s_w s') = base_due k a (s_w s) + base_in s s' + sumZ (map (deal_base (w_mkt (s_w s)) k) deals);
  cr_quote : exists r, 0 <= r <= sumZ (map (self_rounding (w_mkt (s_w s)) k) deals) /\
    quote_due k a' (s_w s') = quote_due k a (s_w s) + quote_in s s' +
      sumZ (map (fun M => deal_quote (w_mkt (s_w s)) k M - self_cost (w_mkt (s_w s)) k M) deals) - r }.
