(** Property C84: prices and sizes in whole tokens, as users of the TypeScript client give and see
    them.  Vocabulary: SpecUnits.v, SpecDeal.v, SpecTrade.v. *)
From Coq Require Import ZArith Reals List Bool Lia Lra SpecFloat.
From Flocq Require Import Core.
From Flocq Require BinarySingleNaN.
From Verif Require Import Base Nodes OrderTree BookSide Heap Market OpenOrders Order Book Instructions Bytes
  SpecBook SpecFees SpecOrder SpecSystem SpecTrade SpecDeal Oracle SpecOracle Units SpecUnits UnitsFacts Samples PropsTrade.
Import ListNotations.
Open Scope Z_scope.

(** A price on a tick is sent as that many ticks, although [0.1] and the like are not doubles.  What
    is missing: larger prices (C84_price_refuted). *)
Theorem C84_price_partial x m k p : usual x m -> 0 <= k -> k * qls m * 10 ^ mr_base_decimals x <= 2 ^ 50 ->
  nearest (price_of x m k) p -> ts_price_lots x m p = Some k.
Proof. exact (price_exact x m k p). Qed.
Print Assumptions C84_price_partial.

(** A size of whole lots is sent as that many lots. *)
Theorem C84_size_partial x m n p : usual x m -> 0 <= n -> n * bls m <= 2 ^ 50 ->
  nearest (size_of x m n) p -> ts_base_lots x m p = Some n.
Proof. exact (size_exact x m n p). Qed.
Print Assumptions C84_size_partial.

(** Any other price is rounded down to a tick, up to a tiny part of a tick, *)
Theorem C84_price_down x m p : usual x m -> double p -> (0 <= real p)%R -> not_tiny (real p) ->
  (real p * IZR (bls m) * IZR (10 ^ mr_quote_decimals x) <= 2 ^ 50)%R ->
  exists k, ts_price_lots x m p = Some k /\ 0 <= k /\
  (price_of x m k < real p + price_of x m 1 / IZR (qls m * 10 ^ mr_base_decimals x))%R /\ (real p < price_of x m (k + 1))%R.
Proof. exact (price_down x m p). Qed.
Print Assumptions C84_price_down.

(** and any other size to a whole lot, up to the token's smallest unit. *)
Theorem C84_size_down x m p : usual x m -> double p -> (0 <= real p)%R -> not_tiny (real p) ->
  (real p * IZR (10 ^ mr_base_decimals x) <= 2 ^ 50)%R ->
  exists n, ts_base_lots x m p = Some n /\ 0 <= n /\
  (size_of x m n < real p + tokens 1 (mr_base_decimals x))%R /\ (real p < size_of x m (n + 1))%R.
Proof. exact (size_down x m p). Qed.
Print Assumptions C84_size_down.

(** SOL for USDC in lots of 0.001 SOL with a tick of 0.001 USDC. *)
Definition rest84 (bd qd : Z) : market_rest := mkRest 255 bd qd (repeat 66 16) 80 81 82 0 0 0.
Definition sol_usdc : market := mkMarket (mkCfg 1 1000000 0 0 40 50 70 0 0 71 77 0 61 62 51 52) 0 0 0 0 0 0 0 0 0 0.
Lemma usual_sol : usual (rest84 9 6) sol_usdc.
Proof. split; cbn [rest84 mr_base_decimals mr_quote_decimals]; unfold bls, qls; cbn [sol_usdc m_cfg c_bls c_qls]; lia. Qed.
(** 123.457 is sent as 123457 ticks and 0.7 as 700 lots; 123.4579 and 0.7009 are as well. *)
Example C84_sizes_case : usual (rest84 9 6) sol_usdc /\
  nearest (price_of (rest84 9 6) sol_usdc 123457) (f64_ratio 123457 1000) /\ nearest (size_of (rest84 9 6) sol_usdc 700) (f64_ratio 7 10) /\
  ts_price_lots (rest84 9 6) sol_usdc (f64_ratio 123457 1000) = Some 123457 /\ ts_base_lots (rest84 9 6) sol_usdc (f64_ratio 7 10) = Some 700 /\
  ts_price_lots (rest84 9 6) sol_usdc (f64_ratio 1234579 10000) = Some 123457 /\ ts_base_lots (rest84 9 6) sol_usdc (f64_ratio 7009 10000) = Some 700.
Proof.
  split; [exact usual_sol|]. split; [|split].
  - replace (price_of (rest84 9 6) sol_usdc 123457) with (IZR 123457 / IZR 1000)%R.
    + apply ratio_nearest; reflexivity || discriminate.
    + rewrite price_of_ratio by exact usual_sol. unfold bls, qls. cbn [sol_usdc m_cfg c_bls c_qls rest84 mr_base_decimals mr_quote_decimals].
      change (123457 * 1 * 10 ^ 9) with 123457000000000. change (1000000 * 10 ^ 6) with 1000000000000. field.
  - replace (size_of (rest84 9 6) sol_usdc 700) with (IZR 7 / IZR 10)%R.
    + apply ratio_nearest; reflexivity || discriminate.
    + rewrite size_of_ratio by exact usual_sol. unfold bls, qls. cbn [sol_usdc m_cfg c_bls c_qls rest84 mr_base_decimals mr_quote_decimals].
      change (700 * 1000000) with 700000000. change (10 ^ 9) with 1000000000. field.
  - vm_compute. repeat split.
Qed.

(** The price and the size the client shows for an order are its own: sent again they give the
    order's ticks and lots. *)
Theorem C84_shown_price_partial x m k : usual x m -> short_tick x m -> 0 <= k -> k * qls m * 10 ^ mr_base_decimals x <= 2 ^ 50 ->
  qls m < 2 ^ 64 -> ts_price_lots x m (ts_show_price x m k) = Some k.
Proof. exact (shown_price x m k). Qed.
Print Assumptions C84_shown_price_partial.
Theorem C84_shown_size_partial x m n : usual x m -> 0 <= n -> n * bls m <= 2 ^ 50 -> ts_base_lots x m (ts_show_size x m n) = Some n.
Proof. exact (shown_size x m n). Qed.
Print Assumptions C84_shown_size_partial.

(** The tick above is 0.001. *)
Example C84_shown_case : short_tick (rest84 9 6) sol_usdc /\ ts_tick (rest84 9 6) sol_usdc = 10 ^ 17 /\
  ts_show_price (rest84 9 6) sol_usdc 123457 = f64_ratio 123457 1000 /\ ts_show_size (rest84 9 6) sol_usdc 700 = f64_ratio 7 10.
Proof.
  split; [|vm_compute; repeat split].
  exists (10 ^ 17). rewrite price_of_ratio by exact usual_sol. unfold tokens, bls, qls.
  cbn [sol_usdc m_cfg c_bls c_qls rest84 mr_base_decimals mr_quote_decimals].
  destruct (tens 20 ltac:(lia)) as [-> _].
  change (1 * 1 * 10 ^ 9) with 1000000000. change (1000000 * 10 ^ 6) with 1000000000000.
  change (10 ^ 17) with 100000000000000000. change (10 ^ 20) with 100000000000000000000. field.
Qed.

(** Without the bound this is false: with lots of one SOL and a tick of 0.01 USDC the price 8.03,
    which the client shows for an order at 803 ticks, is sent as 802. *)
Definition whole_sol : market := mkMarket (mkCfg 10000 1000000000 0 0 40 50 70 0 0 71 77 0 61 62 51 52) 0 0 0 0 0 0 0 0 0 0.
Lemma usual_whole : usual (rest84 9 6) whole_sol.
Proof. split; cbn [rest84 mr_base_decimals mr_quote_decimals]; unfold bls, qls; cbn [whole_sol m_cfg c_bls c_qls]; lia. Qed.
Theorem C84_price_refuted : exists x m k p, usual x m /\ 0 <= k /\ nearest (price_of x m k) p /\ p = ts_show_price x m k /\
  ts_price_lots x m p = Some (k - 1).
Proof.
  exists (rest84 9 6), whole_sol, 803, (f64_ratio 803 100). split; [exact usual_whole|]. split; [lia|]. split.
  - replace (price_of (rest84 9 6) whole_sol 803) with (IZR 803 / IZR 100)%R.
    + apply ratio_nearest; reflexivity || discriminate.
    + rewrite price_of_ratio by exact usual_whole. unfold bls, qls. cbn [whole_sol m_cfg c_bls c_qls rest84 mr_base_decimals mr_quote_decimals].
      change (803 * 10000 * 10 ^ 9) with 8030000000000000. change (1000000000 * 10 ^ 6) with 1000000000000000. field.
  - vm_compute. split; reflexivity.
Qed.
Print Assumptions C84_price_refuted.

(** What an order on a tick and of whole lots is sent as, with what is filled in for the rest. *)
Theorem C84_sent x m now o k n : usual x m -> 0 <= k -> k * qls m * 10 ^ mr_base_decimals x <= 2 ^ 50 ->
  0 <= n -> n * bls m <= 2 ^ 50 -> nearest (price_of x m k) (op_price o) -> nearest (size_of x m n) (op_size o) ->
  exists g, ts_place_args x m now o = Some g /\ pa_side g = op_side o /\ pa_price g = k /\ pa_max_base g = n /\
  (op_quote_limit o = None -> pa_max_quote g = i64_max) /\ (forall q, op_quote_limit o = Some q -> q <> 0 -> pa_max_quote g = q) /\
  (forall c, op_client_id o = Some c -> c <> 0 -> pa_client_id g = c) /\ pa_type g = match op_type o with Some t => t | None => POLimit end /\
  pa_expiry g = match op_expiry o with Some t => t | None => 0 end /\
  pa_self_trade g = match op_self_trade o with Some t => t | None => DecrementTake end /\
  pa_limit g = match op_limit o with Some t => t | None => 16 end.
Proof. exact (sent x m now o k n). Qed.
Print Assumptions C84_sent.

(** In tokens: an order that only takes, with its price on a tick, buys at that price or below and
    sells at it or above, not counting the fee. *)
Theorem C84_deal e s x now c o g k s' out : usual x (w_mkt (s_w s)) -> reachable s ->
  0 <= k -> k * qls (w_mkt (s_w s)) * 10 ^ mr_base_decimals x <= 2 ^ 50 -> nearest (price_of x (w_mkt (s_w s)) k) (op_price o) ->
  ts_place_args x (w_mkt (s_w s)) now o = Some g -> op_type o = Some POImmediateOrCancel \/ op_type o = Some POFillOrKill ->
  exec e s (IPlaceOrder c g) = Ok (s', out) -> stranger (s_w s) (invert_side (op_side o)) (Some (px_acct c)) ->
  exists n, 0 <= n /\
  match op_side o with
  | Bid => purse_base s' c Bid = purse_base s c Bid + n * bls (w_mkt (s_w s)) /\
      (tokens (purse_quote s c Bid - purse_quote s' c Bid) (mr_quote_decimals x)
        <= size_of x (w_mkt (s_w s)) n * price_of x (w_mkt (s_w s)) k + tokens (taker_pays (w_mkt (s_w s)) (n * k * qls (w_mkt (s_w s)))) (mr_quote_decimals x))%R
  | Ask => purse_base s' c Ask = purse_base s c Ask - n * bls (w_mkt (s_w s)) /\
      (size_of x (w_mkt (s_w s)) n * price_of x (w_mkt (s_w s)) k - tokens (taker_pays (w_mkt (s_w s)) (n * k * qls (w_mkt (s_w s)))) (mr_quote_decimals x)
        <= tokens (purse_quote s' c Ask - purse_quote s c Ask) (mr_quote_decimals x))%R
  end.
Proof. exact (order_deal e s x now c o g k s' out). Qed.
Print Assumptions C84_deal.

(** 6 tokens at 10.6 each, where 60 lots of 0.1 are asked for at 106 ticks of 0.1: 2.8 are there,
    for 29.492 with the fee. *)
Definition buy84 : order_to_place :=
  mkToPlace Bid (f64_ratio 106 10) (f64_ratio 6 1) (Some 3000) (Some 9) (Some POImmediateOrCancel) None None (Some 10).
Lemma usual_sample : usual (rest84 3 3) (w_mkt (s_w sample1)).
Proof.
  assert (E : bls (w_mkt (s_w sample1)) = 100 /\ qls (w_mkt (s_w sample1)) = 10) by (vm_compute; auto).
  destruct E as [E1 E2]. split; rewrite ?E1, ?E2; cbn [rest84 mr_base_decimals mr_quote_decimals]; lia.
Qed.
Example C84_deal_case :
  let e := at_time 110 (Some 100) in
  let g := mkPlaceArgs Bid 106 60 3000 9 POImmediateOrCancel 0 DecrementTake 10 in
  let s' := after e sample1 (IPlaceOrder (place_by 3 Bid []) g) in
  usual (rest84 3 3) (w_mkt (s_w sample1)) /\ reachable sample1 /\ nearest (price_of (rest84 3 3) (w_mkt (s_w sample1)) 106) (op_price buy84) /\
  ts_place_args (rest84 3 3) (w_mkt (s_w sample1)) 1700000000000 buy84 = Some g /\
  succeeds e sample1 (IPlaceOrder (place_by 3 Bid []) g) = true /\ stranger (s_w sample1) Ask (Some 103) /\
  purse_base s' (place_by 3 Bid []) Bid - purse_base sample1 (place_by 3 Bid []) Bid = 2800 /\
  purse_quote sample1 (place_by 3 Bid []) Bid - purse_quote s' (place_by 3 Bid []) Bid = 29492.
Proof.
  cbv zeta. split; [exact usual_sample|]. split; [exact sample1_reachable|]. split.
  - replace (price_of (rest84 3 3) (w_mkt (s_w sample1)) 106) with (IZR 106 / IZR 10)%R.
    + apply ratio_nearest; reflexivity || discriminate.
    + rewrite price_of_ratio by exact usual_sample.
      assert (E : bls (w_mkt (s_w sample1)) = 100 /\ qls (w_mkt (s_w sample1)) = 10) by (vm_compute; auto).
      destruct E as [-> ->]. cbn [rest84 mr_base_decimals mr_quote_decimals].
      change (106 * 10 * 10 ^ 3) with 1060000. change (100 * 10 ^ 3) with 100000. field.
  - split; [vm_compute; reflexivity|]. split; [vm_compute; reflexivity|].
    split; [apply no_order_stranger; vm_compute; reflexivity|]. vm_compute. auto.
Qed.

(** But a price between two ticks is rounded down on both sides: a seller who asks for 10.0078125
    offers at 10. *)
Definition sell84 : order_to_place := mkToPlace Ask (f64_ratio 1281 128) (f64_ratio 1 1) None None None None None None.
Theorem C84_sell_refuted : exists x m now o g, usual x m /\ op_side o = Ask /\ ts_place_args x m now o = Some g /\
  (real (op_price o) = 1281 / 128 /\ price_of x m (pa_price g) = 10)%R.
Proof.
  exists (rest84 9 6), (mkMarket (mkCfg 100 10000000 0 0 40 50 70 0 0 71 77 0 61 62 51 52) 0 0 0 0 0 0 0 0 0 0), 1700000000000, sell84.
  eexists.
  match goal with |- ?U /\ _ => assert (H : U) by (split; cbn; lia) end.
  split; [exact H|]. split; [reflexivity|]. split; [vm_compute; reflexivity|]. split.
  - change (op_price sell84) with (f64_ratio 1281 128).
    replace (f64_ratio 1281 128) with (S754_finite false 5633897580724224 (-49)) by (vm_compute; reflexivity).
    unfold real, BinarySingleNaN.SF2R, F2R. cbn [cond_Zopp Fnum Fexp bpow]. change (Z.pow_pos radix2 49) with 562949953421312. field.
  - rewrite price_of_ratio by exact H. cbn [pa_price]. unfold bls, qls. cbn [m_cfg c_bls c_qls rest84 mr_base_decimals mr_quote_decimals].
    change (1000 * 100 * 10 ^ 9) with 100000000000000. change (10000000 * 10 ^ 6) with 10000000000000. field.
Qed.
Print Assumptions C84_sell_refuted.
