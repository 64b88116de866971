(** Property C69: counted in tokens, no order trades worse than its limit price or costs more
    than the most it may trade.  Vocabulary: SpecDeal.v, SpecTrade.v, SpecFees.v. *)
From Coq Require Import ZArith List Bool Lia.
From Verif Require Import Base Nodes OrderTree BookSide Heap Market OpenOrders Order Book Instructions
  SpecBook SpecFees SpecOrder SpecSystem SpecTrade SpecDeal DealFacts Samples PropsTrade.
Import ListNotations.
Open Scope Z_scope.

(** An order sent straight from a wallet trades some number [n] of base lots within its maximum.
    A buyer gets exactly these, pays at most the most quote the order may spend, fee included,
    and - unless it is a market order - at most the limit price for each lot plus the fee.  A
    seller gives exactly these and gets at least the limit price for each lot less the fee. *)
Theorem C69_direct e s x g s' out : reachable s -> exec e s (IPlaceTake x g) = Ok (s', out) ->
  owns s (tx_signer x) (tx_user_base x) -> owns s (tx_signer x) (tx_user_quote x) ->
  exists n, 0 <= n <= ta_max_base g /\
  match ta_side g with
  | Bid => in_wallet s' (tx_user_base x) = in_wallet s (tx_user_base x) + n * bls (w_mkt (s_w s)) /\
           0 <= in_wallet s (tx_user_quote x) - in_wallet s' (tx_user_quote x) <= ta_max_quote g * qls (w_mkt (s_w s)) /\
           (ta_type g <> POMarket ->
            in_wallet s (tx_user_quote x) - in_wallet s' (tx_user_quote x) <= dearest (w_mkt (s_w s)) n (ta_price g))
  | Ask => in_wallet s' (tx_user_base x) = in_wallet s (tx_user_base x) - n * bls (w_mkt (s_w s)) /\
           0 <= in_wallet s' (tx_user_quote x) - in_wallet s (tx_user_quote x) /\
           (ta_type g <> POMarket ->
            cheapest (w_mkt (s_w s)) n (ta_price g) <= in_wallet s' (tx_user_quote x) - in_wallet s (tx_user_quote x))
  end.
Proof. exact (direct_deal e s x g s' out). Qed.
Print Assumptions C69_direct.

(** The same for an order through an account that never rests, counting free balance and wallet
    together. *)
Theorem C69_through e s x g s' out : reachable s -> exec e s (IPlaceOrder x g) = Ok (s', out) ->
  takes_only (pa_type g) = true -> stranger (s_w s) (invert_side (pa_side g)) (Some (px_acct x)) ->
  exists n, 0 <= n <= Z.max 0 (pa_max_base g) /\
  match pa_side g with
  | Bid => purse_base s' x Bid = purse_base s x Bid + n * bls (w_mkt (s_w s)) /\
           0 <= purse_quote s x Bid - purse_quote s' x Bid <= Z.max 0 (pa_max_quote g * qls (w_mkt (s_w s))) /\
           (pa_type g <> POMarket -> purse_quote s x Bid - purse_quote s' x Bid <= dearest (w_mkt (s_w s)) n (pa_price g))
  | Ask => purse_base s' x Ask = purse_base s x Ask - n * bls (w_mkt (s_w s)) /\
           0 <= purse_quote s' x Ask - purse_quote s x Ask /\
           (pa_type g <> POMarket -> cheapest (w_mkt (s_w s)) n (pa_price g) <= purse_quote s' x Ask - purse_quote s x Ask)
  end.
Proof. exact (through_deal e s x g s' out). Qed.
Print Assumptions C69_through.

(** Placing or editing an order of any kind, pegged or not, with whatever resting orders of one's
    own: a bid takes from free balance and wallet at most the most quote it may spend and no base;
    an ask at most the most base it may sell and no quote. *)
Theorem C69_budget e s i s' out x sd mb mq : reachable s -> exec e s i = Ok (s', out) -> asked_by i = Some (x, sd, mb, mq) ->
  match sd with
  | Bid => purse_base s x Bid <= purse_base s' x Bid /\
           purse_quote s x Bid - Z.max 0 mq * qls (w_mkt (s_w s)) <= purse_quote s' x Bid
  | Ask => purse_quote s x Ask <= purse_quote s' x Ask /\
           purse_base s x Ask - Z.max 0 mb * bls (w_mkt (s_w s)) <= purse_base s' x Ask
  end.
Proof. exact (order_budget e s i s' out x sd mb mq). Qed.
Print Assumptions C69_budget.

(** Placing a list of orders: free balance and wallet give at most what the bids may spend, and
    no base at all if there are no asks. *)
Theorem C69_list e s x cancel t bids asks limit s' out : reachable s ->
  exec e s (IPlaceMulti x cancel t bids asks limit) = Ok (s', out) ->
  free_quote s (mx_acct x) + in_wallet s (mx_user_quote x) - sumZ (map (fun g => Z.max 0 (ua_max_quote g)) bids) * qls (w_mkt (s_w s))
    <= free_quote s' (mx_acct x) + in_wallet s' (mx_user_quote x) /\
  (asks = [] -> free_base s (mx_acct x) + in_wallet s (mx_user_base x) <= free_base s' (mx_acct x) + in_wallet s' (mx_user_base x)).
Proof. exact (multi_budget e s x cancel t bids asks limit s' out). Qed.
Print Assumptions C69_list.

(** Sixty lots sold into bids of 40 at 95 and 50 at 94 with the limit 94: the seller gets 56800,
    where 56377 is the least the limit allows. *)
Example C69_direct_case :
  let e := at_time 110 (Some 100) in
  let direct := after e sample1 (IPlaceTake three_direct sell_direct) in
  reachable sample1 /\ succeeds e sample1 (IPlaceTake three_direct sell_direct) = true /\
  owns sample1 3 31 /\ owns sample1 3 32 /\
  (in_wallet direct 31 - in_wallet sample1 31, in_wallet direct 32 - in_wallet sample1 32) = (- (60 * 100), 56800) /\
  cheapest (w_mkt (s_w sample1)) 60 94 = 56377.
Proof.
  cbv zeta. split; [exact sample1_reachable|]. split; [vm_compute; reflexivity|].
  do 2 (split; [eexists; split; vm_compute; reflexivity|]). vm_compute. auto.
Qed.

(** User 3 buys through an account with the limit 106 and at most 3000 quote lots: 20 lots at 105 and
    8 at 106, for 29492 of the 30000 it may spend. *)
Definition buy_args : place_args := mkPlaceArgs Bid 106 60 3000 9 POImmediateOrCancel 0 DecrementTake 10.
Definition three_bids : place_ctx := place_by 3 Bid [].
Example C69_through_case :
  let e := at_time 110 (Some 100) in
  let s' := after e sample1 (IPlaceOrder three_bids buy_args) in
  succeeds e sample1 (IPlaceOrder three_bids buy_args) = true /\ stranger (s_w sample1) Ask (Some 103) /\
  (purse_base s' three_bids Bid - purse_base sample1 three_bids Bid, purse_quote sample1 three_bids Bid - purse_quote s' three_bids Bid) = (2800, 29492) /\
  dearest (w_mkt (s_w sample1)) 28 106 = 29692.
Proof.
  cbv zeta. split; [vm_compute; reflexivity|]. split; [apply no_order_stranger; vm_compute; reflexivity|]. vm_compute. auto.
Qed.

(** Orders whose rest is posted, limit and pegged: what is paid and locked stays below 50000, 50000,
    60000 and 1000000. *)
Definition rests (q : Z) : instr := IPlaceOrder three_bids (mkPlaceArgs Bid 106 60 q 9 POLimit 0 DecrementTake 10).
Definition rests_pegged (q : Z) : instr := IPlacePegged three_bids (mkPegArgs Bid 6 200 60 q 9 POLimit 0 DecrementTake 10).
Example C69_budget_case :
  let e := at_time 110 (Some 100) in
  let spent i := purse_quote sample1 three_bids Bid - purse_quote (after e sample1 i) three_bids Bid in
  map (succeeds e sample1) [rests 5000; rests_pegged 5000; rests 6000; rests_pegged 100000] = [true; true; true; true] /\
  map spent [rests 5000; rests_pegged 5000; rests 6000; rests_pegged 100000] = [49638; 48918; 59180; 86925].
Proof. vm_compute. auto. Qed.

(** Two bids and an ask at once: 55940 of at most 57000. *)
Definition three_list : instr := IPlaceMulti (mkMultiCtx 3 103 0 32 31 []) true POLimit
  [mkMultiArgs 106 5000 0; mkMultiArgs 90 700 0] [mkMultiArgs 120 1000 0] 10.
Example C69_list_case :
  let e := at_time 110 (Some 100) in let s' := after e sample1 three_list in
  succeeds e sample1 three_list = true /\
  free_quote sample1 103 + in_wallet sample1 32 - (free_quote s' 103 + in_wallet s' 32) = 55940.
Proof. vm_compute. auto. Qed.
