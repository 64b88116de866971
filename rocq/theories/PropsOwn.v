(** C66: what an account's own instructions do to what it is due.
    Vocabulary: SpecOwn.v (and SpecExit.v for what is due, SpecPersist.v for the orders sent,
    SpecLogs.v for reports). *)
From Coq Require Import ZArith List Bool Permutation.
From Verif Require Import Base Nodes OrderTree BookSide Heap Market OpenOrders Order Book Instructions Logs
  SpecBook SpecFees SpecOrder SpecLedger SpecEvents SpecSystem SpecControl SpecMatch SpecPersist SpecTrade SpecLogs SpecExit SpecOwn OwnIx
  Samples PropsWorth.
Import ListNotations.
Open Scope Z_scope.

(** C66: an account places, edits, cancels, deposits, delegates or is pruned: what it is due in
    base and quote changes by exactly what goes into the vaults and by what the matches of the
    orders it sent bring at the makers' prices, less the taker's fee on each order's sum.  The
    matches are on the sides and within the limits of the orders sent, and each is reported or
    queued.  Matches with its own orders bring nothing, and cost the fee locked by an own bid and
    at most one unit of quote. *)
Theorem C66_own_instructions e s i s' out k a : reachable s -> exec e s i = Ok (s', out) -> acts_for i k -> carries_on i = true ->
  acct_get k (w_accts (s_w s)) = Some a ->
  exists a' deals, acct_get k (w_accts (s_w s')) = Some a' /\ carried k e s i a s' a' deals.
Proof. exact (own_carried e s i s' out k a). Qed.
Print Assumptions C66_own_instructions.

(** Settling takes what is free out of what is due and nothing else: the referrer's part is not
    the account's. *)
Theorem C66_settling e s i s' out k ub uq ref a : reachable s -> exec e s i = Ok (s', out) -> settles i k ub uq ref ->
  acct_get k (w_accts (s_w s)) = Some a -> exists a', acct_get k (w_accts (s_w s')) = Some a' /\
    base_due k a' (s_w s') = base_due k a (s_w s) - p_base_free (a_pos a) /\
    quote_due k a' (s_w s') = quote_due k a (s_w s) - p_quote_free (a_pos a).
Proof. exact (settle_due e s i s' out k ub uq ref a). Qed.
Print Assumptions C66_settling.

(** User 1 bids 107 for 60 lots: 20 of its own at 105, 15 of user 2's at oracle + 6; the rest is
    posted at 107 after its expired ask there is dropped.  It pays 63663 in, of which 15900 and
    the fee of 7 go to the trade with user 2. *)
Definition buying : instr := limit_order 1 Bid 107 60 6.
Definition bought : sys := after (at_time 160 (Some 100)) sample1 buying.
Definition own_ask : fill_event := mkFill Bid true 0 160 6 101 100 101 6 105 (-1) 20 1.
Definition their_ask : fill_event := mkFill Bid true 0 160 6 102 102 101 6 106 1 15 3.
Example C66_case : reachable sample1 /\ succeeds (at_time 160 (Some 100)) sample1 buying = true /\
  acts_for buying 101 /\ carries_on buying = true /\
  wanted (Some 100) buying = [(Bid, Some 107)] /\ waiting_fills (s_w bought) = [own_ask; their_ask] /\
  dues sample1 101 = Some (5000, 85018) /\ dues bought 101 = Some (6500, 132774) /\
  base_in sample1 bought = 0 /\ quote_in sample1 bought = 63663 /\
  deal_base (w_mkt (s_w sample1)) 101 [own_ask; their_ask] = 1500 /\
  deal_quote (w_mkt (s_w sample1)) 101 [own_ask; their_ask] = -15907 /\
  self_cost (w_mkt (s_w sample1)) 101 [own_ask; their_ask] = 0 /\ self_rounding (w_mkt (s_w sample1)) 101 [own_ask; their_ask] = 0.
Proof. split; [exact sample1_reachable|]. vm_compute. repeat split. Qed.

(** User 1 sells 120 lots at 93 into its own two bids: nothing changes hands, but the maker fees
    of 8 and 10 these bids had locked, 16 in all before rounding up each, are gone. *)
Definition wash : instr := limit_order 1 Ask 93 120 6.
Definition washed : sys := after (at_time 160 (Some 100)) sample1 wash.
Example C66_self_case : succeeds (at_time 160 (Some 100)) sample1 wash = true /\
  dues sample1 101 = Some (5000, 85018) /\ dues washed 101 = Some (14000, 85000) /\ base_in sample1 washed = 9000 /\ quote_in sample1 washed = 0 /\
  map (fun f => (fe_maker f, fe_price f, fe_qty f)) (waiting_fills (s_w washed)) = [(101, 95, 40); (101, 94, 50)] /\
  deal_base (w_mkt (s_w sample1)) 101 (waiting_fills (s_w washed)) = 0 /\
  deal_quote (w_mkt (s_w sample1)) 101 (waiting_fills (s_w washed)) = 0 /\
  self_cost (w_mkt (s_w sample1)) 101 (waiting_fills (s_w washed)) = 16 /\
  self_rounding (w_mkt (s_w sample1)) 101 (waiting_fills (s_w washed)) = 2.
Proof. vm_compute. repeat split. Qed.

(** It cancels a bid, then settles. *)
Definition cancelled : sys := after (at_time 160 (Some 100)) sample1 (ICancelClient 1 101 4).
Definition paid_out : sys := after (at_time 161 (Some 100)) cancelled (ISettle 1 101 11 12 None).
Example C66_settling_case : succeeds (at_time 161 (Some 100)) cancelled (ISettle 1 101 11 12 None) = true /\
  dues sample1 101 = Some (5000, 85018) /\ dues cancelled 101 = Some (5000, 85018) /\ dues paid_out 101 = Some (5000, 47010) /\
  option_map (fun p => (p_base_free p, p_quote_free p)) (pos_of cancelled 101) = Some (0, 38008).
Proof. vm_compute. repeat split. Qed.
