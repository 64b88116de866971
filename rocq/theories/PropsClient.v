(** Properties C43 and C44: the client library's quotes. *)
From Coq Require Import ZArith List Bool.
From Verif Require Import Base Nodes OrderTree BookSide Heap Market OpenOrders Order Book Instructions
  SpecBook SpecOrder SpecControl Oracle SpecOracle SpecEvents SpecSystem OracleUse Client SpecClient ClientProofs QuoteProofs Samples PropsOracle.
Import ListNotations.
Open Scope Z_scope.

(** C43: for a market order sent directly with the client's match limit, the client, reading
    the same book at the same time with the same oracle accounts, computes exactly the base,
    the quote and the fee that the execution moves.  The flag for too little liquidity is off
    exactly if the seller sells everything, or the buyer spends all that remains of the limit
    once the taker fee is set aside. *)
Theorem C43_quote_is_execution c a b now slot s x g s' out :
  reachable s -> exec (env_of_oracles now slot (w_mkt (s_w s)) c a b) s (IPlaceTake x g) = Ok (s', out) ->
  ta_type g = POMarket -> ta_limit g = 45 ->
  exists p base quote fee short,
    oracle_price (w_mkt (s_w s)) c a b slot = Ok p /\
    amounts_from_book (book_of s) (ta_side g) (ta_max_base g) (ta_max_quote g) (w_mkt (s_w s)) p now =
      Ok (mkClientAmounts base quote fee short) /\
    take_moves x (ta_side g) base quote fee s s' /\
    (short = false <-> match ta_side g with
       | Ask => base = ta_max_base g * bls (w_mkt (s_w s))
       | Bid => quote = ta_max_quote g * 1000000 / (1000000 + taker_fee (w_mkt (s_w s))) * qls (w_mkt (s_w s))
       end).
Proof.
  intros Hr H Ht Hl.
  destruct (take_quoted _ _ _ _ _ _ _ _ _ _ Hr H Ht Hl) as (p & lots & base & qd & fee & short & accts & H1 & H2 & H3 & _ & H4 & _).
  exists p, base, qd, fee, short. exact (conj H1 (conj H2 (conj H3 H4))).
Qed.
Print Assumptions C43_quote_is_execution.

(** User 3 buys 40 lots from three orders, one of them pegged: 42250 paid for 4000. *)
Definition client_env : env := env_of_oracles 120 5100 (w_mkt (s_w sample1)) conf8 (Some stub10000) None.
Definition client_buy (rem : list Z) : instr :=
  IPlaceTake (mkTakeCtx 3 0 31 32 rem) (mkTakeArgs Bid 1 40 5000 POMarket 45).
Example C43_quote_is_execution_case :
  reachable sample1 /\ succeeds client_env sample1 (client_buy []) = true /\
  oracle_price (w_mkt (s_w sample1)) conf8 (Some stub10000) None 5100 = Ok (Some (10 * 2 ^ 48)) /\
  amounts_from_book (book_of sample1) Bid 40 5000 (w_mkt (s_w sample1)) (Some (10 * 2 ^ 48)) 120 =
    Ok (mkClientAmounts 4000 42250 0 true) /\
  amounts_of sample1 [31; 32] = [Some 1000000000; Some 1000000000] /\
  amounts_of (after client_env sample1 (client_buy [])) [31; 32] = [Some 1000004000; Some 999957750].
Proof. split; [exact sample1_reachable|]. vm_compute. repeat split. Qed.

(** C43: if the accounts the client lists are passed to the instruction, at most 30 events
    are queued, and none if the client lists fewer than 15. *)
Theorem C43_accounts c a b now slot s x g s' out :
  reachable s -> exec (env_of_oracles now slot (w_mkt (s_w s)) c a b) s (IPlaceTake x g) = Ok (s', out) ->
  ta_type g = POMarket -> ta_limit g = 45 ->
  exists p lots base quote fee short accounts,
    oracle_price (w_mkt (s_w s)) c a b slot = Ok p /\ client_oracle_lots (w_mkt (s_w s)) p = Ok lots /\
    iterate_book (book_of s) (ta_side g) (ta_max_base g) (ta_max_quote g) (w_mkt (s_w s)) lots now =
      Ok (base, quote, fee, short, accounts) /\
    (incl accounts (tx_rem x) ->
     h_count (w_heap (s_w s')) <= h_count (w_heap (s_w s)) + 30 /\
     ((length accounts < 15)%nat -> w_heap (s_w s') = w_heap (s_w s))).
Proof.
  intros Hr H Ht Hl.
  destruct (take_quoted _ _ _ _ _ _ _ _ _ _ Hr H Ht Hl) as (p & lots & base & qd & fee & short & accts & H1 & _ & _ & _ & _ & H2 & H3 & H4).
  exists p, lots. do 4 eexists. exists accts. exact (conj H1 (conj H2 (conj H3 H4))).
Qed.
Print Assumptions C43_accounts.

(** With the makers' accounts nothing is queued; without them three fills are. *)
Example C43_accounts_case :
  iterate_book (book_of sample1) Bid 40 5000 (w_mkt (s_w sample1)) (Some 100) 120 =
    Ok (40, 4225, 0, true, [101; 102; 101]) /\
  succeeds client_env sample1 (client_buy [101; 102]) = true /\
  h_count (w_heap (s_w (after client_env sample1 (client_buy [101; 102])))) = 0 /\
  h_count (w_heap (s_w (after client_env sample1 (client_buy [])))) = 3.
Proof. vm_compute. repeat split. Qed.

(** C43: before any order is sent, the client can list the accounts to crank against a side:
    up to three of them, none twice, which are exactly the owners of the first orders that can
    trade now; if fewer than three are listed no owner is missing. *)
Theorem C43_crank_accounts s sd oracle now accts :
  remaining_accounts_to_crank (book_of s) sd (w_mkt (s_w s)) oracle now = Ok accts ->
  NoDup accts /\ (length accts <= 3)%nat /\ exists lots first rest,
    client_oracle_lots (w_mkt (s_w s)) oracle = Ok lots /\
    iter_valid (w_book (s_w s) (invert_side sd)) now lots = Ok (first ++ rest) /\
    (forall k, In k accts <-> exists i, In i first /\ lf_owner (im_leaf i) = k) /\
    ((length accts < 3)%nat -> rest = []).
Proof. exact (crank_accounts s sd oracle now accts). Qed.
Print Assumptions C43_crank_accounts.

(** Three orders of two makers are in the way of a buyer. *)
Example C43_crank_accounts_case :
  reachable sample1 /\
  remaining_accounts_to_crank (book_of sample1) Bid (w_mkt (s_w sample1)) (Some (10 * 2 ^ 48)) 120 = Ok [101; 102] /\
  match iter_valid (w_book (s_w sample1) Ask) 120 (Some 100) with
  | Ok l => map (fun i => lf_owner (im_leaf i)) l = [101; 102; 101]
  | Err _ => False
  end.
Proof. split; [exact sample1_reachable|]. vm_compute. repeat split. Qed.

(** C44: a quote can consume more than the given input: selling 7 base units where the base
    lot is 100 is quoted as 700 units. *)
Theorem C44_input_refuted : exists s oracle mint amount q,
  reachable s /\ mint = c_base_mint (m_cfg (w_mkt (s_w s))) /\
  quote (book_of s) (w_mkt (s_w s)) oracle mint amount = Ok q /\ amount < jq_in q.
Proof.
  exists sample1, (Some (10 * 2 ^ 48)), 61, 7, (mkJupQuote 700 6650 62 0 false).
  split; [exact sample1_reachable|]. vm_compute. repeat split.
Qed.
Print Assumptions C44_input_refuted.

(** The quote reads the input as a number of lots, and never consumes more than that: with a
    lot size of one, not more than the input. *)
Theorem C44_input_partial s oracle mint amount q :
  reachable s -> quote (book_of s) (w_mkt (s_w s)) oracle mint amount = Ok q -> 0 <= amount ->
  jq_in q <= amount * (if mint =? c_quote_mint (m_cfg (w_mkt (s_w s))) then qls (w_mkt (s_w s)) else bls (w_mkt (s_w s))).
Proof. exact (quoted_within s oracle mint amount q). Qed.
Print Assumptions C44_input_partial.

Example C44_input_case : reachable sample2 /\
  qls (w_mkt (s_w sample2)) = 1 /\ bls (w_mkt (s_w sample2)) = 1 /\
  quote (book_of sample2) (w_mkt (s_w sample2)) None 61 15 = Ok (mkJupQuote 15 1300 62 0 false) /\
  quote (book_of sample2) (w_mkt (s_w sample2)) None 62 1500 = Ok (mkJupQuote 1400 12 62 0 true).
Proof. split; [exact sample2_reachable|]. vm_compute. repeat split. Qed.

(** A market where makers earn a rebate, with lots of one: user 1 asks 20 at 10 and bids 20 at 8. *)
Definition rebate_run : res sys :=
  run (sample_market 1 1 (-200000) 400000)
    (open_accounts 10 ++ [(at_time 100 None, limit_order 1 Ask 10 20 1); (at_time 100 None, limit_order 1 Bid 8 20 2)]).
Definition rebates : sys := the_sys rebate_run.
Lemma rebates_reachable : reachable rebates.
Proof. unfold rebates, rebate_run, sample_market. apply sample_reachable. vm_compute. reflexivity. Qed.
Definition rebate_env : env := env_of_oracles 120 5100 (w_mkt (s_w rebates)) conf8 (Some stub10000) None.

(** The quote puts the fee on the wrong side: it promises 10 units for 80, the execution
    takes 120. *)
Theorem C44_fee_refuted : exists s e amount q x g s' out price,
  reachable s /\ qls (w_mkt (s_w s)) = 1 /\ bls (w_mkt (s_w s)) = 1 /\
  e = env_of_oracles 120 5100 (w_mkt (s_w s)) conf8 (Some stub10000) None /\
  oracle_price (w_mkt (s_w s)) conf8 (Some stub10000) None 5100 = Ok price /\
  quote (book_of s) (w_mkt (s_w s)) price (c_quote_mint (m_cfg (w_mkt (s_w s)))) amount = Ok q /\
  ta_side g = Bid /\ ta_type g = POMarket /\ ta_limit g = 45 /\ ta_max_quote g = amount /\
  exec e s (IPlaceTake x g) = Ok (s', out) /\
  jq_in q = 80 /\ jq_out q = 10 /\
  amounts_of s [tx_user_quote x; tx_user_base x] = [Some 1000000000; Some 1000000000] /\
  amounts_of s' [tx_user_quote x; tx_user_base x] = [Some (1000000000 - 120); Some (1000000000 + 10)].
Proof.
  set (x := mkTakeCtx 3 0 31 32 []). set (g := mkTakeArgs Bid 1 i64_max 150 POMarket 45).
  destruct (succeeds_after rebate_env rebates (IPlaceTake x g)) as (out & E); [vm_compute; reflexivity|].
  set (s' := after rebate_env rebates (IPlaceTake x g)) in *.
  exists rebates, rebate_env, 150, (mkJupQuote 80 10 62 20 true), x, g, s', out, (Some (10 * 2 ^ 48)).
  split; [exact rebates_reachable|]. split; [vm_compute; reflexivity|]. split; [vm_compute; reflexivity|].
  split; [reflexivity|]. split; [vm_compute; reflexivity|]. split; [vm_compute; reflexivity|].
  do 4 (split; [reflexivity|]). split; [exact E|]. split; [reflexivity|]. split; [reflexivity|].
  split; vm_compute; reflexivity.
Qed.
Print Assumptions C44_fee_refuted.

(** The quote counts expired orders: at second 200 the order at 107 is gone, and the
    execution delivers less than quoted. *)
Theorem C44_expired_refuted : exists s now amount q x g s' out price,
  reachable s /\
  oracle_price (w_mkt (s_w s)) conf8 (Some stub10000) None 5100 = Ok price /\
  quote (book_of s) (w_mkt (s_w s)) price (c_quote_mint (m_cfg (w_mkt (s_w s)))) amount = Ok q /\
  ta_side g = Bid /\ ta_type g = POMarket /\ ta_limit g = 45 /\ ta_max_quote g = amount /\
  exec (env_of_oracles now 5100 (w_mkt (s_w s)) conf8 (Some stub10000) None) s (IPlaceTake x g) = Ok (s', out) /\
  jq_out q = 4700 /\
  amounts_of s [tx_user_base x] = [Some 1000000000] /\
  amounts_of s' [tx_user_base x] = [Some (1000000000 + 3500)].
Proof.
  set (x := mkTakeCtx 3 0 31 32 []). set (g := mkTakeArgs Bid 1 92233720368547758 5000 POMarket 45).
  set (e := env_of_oracles 200 5100 (w_mkt (s_w sample1)) conf8 (Some stub10000) None).
  destruct (succeeds_after e sample1 (IPlaceTake x g)) as (out & E); [vm_compute; reflexivity|].
  set (s' := after e sample1 (IPlaceTake x g)) in *.
  exists sample1, 200, 5000, (mkJupQuote 49740 4700 62 0 true), x, g, s', out, (Some (10 * 2 ^ 48)).
  split; [exact sample1_reachable|]. split; [vm_compute; reflexivity|]. split; [vm_compute; reflexivity|].
  do 4 (split; [reflexivity|]). split; [exact E|]. split; [reflexivity|].
  split; vm_compute; reflexivity.
Qed.
Print Assumptions C44_expired_refuted.

(** What remains true: on a market without an open orders admin, if no order of the opposite
    side expires, the quote for [amount] describes the take that is limited by [amount]
    lots, except that the fee (the makers' rebates) has the wrong sign: the buyer pays
    [jq_in + 2 * jq_fee], the seller receives [jq_out - 2 * jq_fee]. *)
Theorem C44_quote_of_take_partial c a b now slot s x g s' out mint amount :
  reachable s -> exec (env_of_oracles now slot (w_mkt (s_w s)) c a b) s (IPlaceTake x g) = Ok (s', out) ->
  ta_type g = POMarket -> ta_limit g = 45 -> c_open_orders_admin (m_cfg (w_mkt (s_w s))) = 0 ->
  (forall t M l, lists (w_book (s_w s) (invert_side (ta_side g))) t M -> In l M -> lf_tif l = 0) ->
  match ta_side g with
  | Bid => mint = c_quote_mint (m_cfg (w_mkt (s_w s))) /\ max_base_lots (w_mkt (s_w s)) = Ok (ta_max_base g) /\ ta_max_quote g = amount
  | Ask => mint <> c_quote_mint (m_cfg (w_mkt (s_w s))) /\ max_quote_lots (w_mkt (s_w s)) = Ok (ta_max_quote g) /\ ta_max_base g = amount
  end -> 0 <= amount <= 9223372036854775807 ->
  exists p q base quoted, oracle_price (w_mkt (s_w s)) c a b slot = Ok p /\
    quote (book_of s) (w_mkt (s_w s)) p mint amount = Ok q /\ 0 <= jq_fee q /\
    take_moves x (ta_side g) base quoted (jq_fee q) s s' /\
    match ta_side g with
    | Bid => jq_in q = quoted - jq_fee q /\ jq_out q = base
    | Ask => jq_in q = base /\ jq_out q = quoted + jq_fee q
    end.
Proof. exact (take_as_quoted c a b now slot s x g s' out mint amount). Qed.
Print Assumptions C44_quote_of_take_partial.

(** Selling 15 into the rebate market: quoted 144, paid 96, with a fee of 24. *)
Definition rebate_sell : instr := IPlaceTake (mkTakeCtx 3 0 31 32 []) (mkTakeArgs Ask 1 15 i64_max POMarket 45).
Example C44_quote_of_take_case :
  reachable rebates /\ succeeds rebate_env rebates rebate_sell = true /\
  c_open_orders_admin (m_cfg (w_mkt (s_w rebates))) = 0 /\
  map (fun x => lf_tif (snd x)) (orders (s_w rebates) Bid) = [0] /\
  max_quote_lots (w_mkt (s_w rebates)) = Ok i64_max /\
  quote (book_of rebates) (w_mkt (s_w rebates)) (Some (10 * 2 ^ 48)) 61 15 = Ok (mkJupQuote 15 144 62 24 false) /\
  amounts_of (after rebate_env rebates rebate_sell) [31; 32] = [Some (1000000000 - 15); Some (1000000000 + 96)].
Proof. split; [exact rebates_reachable|]. vm_compute. repeat split. Qed.
