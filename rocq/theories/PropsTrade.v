(** Property C59: what an order trades, and for what fees, does not depend on who sends it.
    Vocabulary: SpecTrade.v. *)
From Coq Require Import ZArith List Bool Lia.
From Verif Require Import Base Nodes OrderTree BookSide Heap Market OpenOrders Order Book Instructions
  SpecBook SpecOrder SpecSystem SpecTrade TradeFacts TradeIx Samples.
Import ListNotations.
Open Scope Z_scope.

(** Two placements against the same opposing side of the book, under the same market terms,
    oracle price, clock and match limit, of orders on the same terms: whatever the senders, the
    accounts, the event queue and the accounts passed along, if both go through they trade and
    post the same amounts for the same fees and leave the same orders on the opposing side -
    as long as neither sender's account has orders there. *)
Theorem C59_same_trade w1 w2 o1 o2 oracle tk1 tk2 ow1 ow2 now limit rem1 rem2 w1' w2' r1 r2 :
  alike o2 o1 -> sound_call w1 o1 tk1 ow1 -> sound_call w2 o2 tk2 ow2 ->
  w_book w1 (invert_side (o_side o1)) = w_book w2 (invert_side (o_side o1)) ->
  m_cfg (w_mkt w1) = m_cfg (w_mkt w2) ->
  stranger w1 (invert_side (o_side o1)) tk1 -> stranger w2 (invert_side (o_side o1)) tk2 ->
  new_order w1 o1 oracle tk1 ow1 now limit rem1 = Ok (w1', r1) ->
  new_order w2 o2 oracle tk2 ow2 now limit rem2 = Ok (w2', r2) ->
  same_deal r1 r2 /\ orders w1' (invert_side (o_side o1)) = orders w2' (invert_side (o_side o1)).
Proof. exact (same_trade w1 w2 o1 o2 oracle tk1 tk2 ow1 ow2 now limit rem1 rem2 w1' w2' r1 r2). Qed.
Print Assumptions C59_same_trade.

(** Two direct take orders: the wallets change by the same amounts and the book ends the same. *)
Theorem C59_direct e s x1 x2 g s1 s2 out1 out2 : reachable s ->
  exec e s (IPlaceTake x1 g) = Ok (s1, out1) -> exec e s (IPlaceTake x2 g) = Ok (s2, out2) ->
  owns s (tx_signer x1) (tx_user_base x1) -> owns s (tx_signer x1) (tx_user_quote x1) ->
  owns s (tx_signer x2) (tx_user_base x2) -> owns s (tx_signer x2) (tx_user_quote x2) ->
  in_wallet s1 (tx_user_base x1) - in_wallet s (tx_user_base x1) = in_wallet s2 (tx_user_base x2) - in_wallet s (tx_user_base x2) /\
  in_wallet s1 (tx_user_quote x1) - in_wallet s (tx_user_quote x1) = in_wallet s2 (tx_user_quote x2) - in_wallet s (tx_user_quote x2) /\
  forall sd, orders (s_w s1) sd = orders (s_w s2) sd.
Proof. exact (direct_same e s x1 x2 g s1 s2 out1 out2). Qed.
Print Assumptions C59_direct.

(** Two orders through accounts that only take: wallet and free balance together change by the
    same amounts, whichever of them pays. *)
Theorem C59_through_accounts e s x1 x2 g s1 s2 out1 out2 : reachable s -> takes_only (pa_type g) = true ->
  stranger (s_w s) (invert_side (pa_side g)) (Some (px_acct x1)) -> stranger (s_w s) (invert_side (pa_side g)) (Some (px_acct x2)) ->
  exec e s (IPlaceOrder x1 g) = Ok (s1, out1) -> exec e s (IPlaceOrder x2 g) = Ok (s2, out2) ->
  purse_base s1 x1 (pa_side g) - purse_base s x1 (pa_side g) = purse_base s2 x2 (pa_side g) - purse_base s x2 (pa_side g) /\
  purse_quote s1 x1 (pa_side g) - purse_quote s x1 (pa_side g) = purse_quote s2 x2 (pa_side g) - purse_quote s x2 (pa_side g) /\
  forall sd, orders (s_w s1) sd = orders (s_w s2) sd.
Proof. exact (through_same e s x1 x2 g s1 s2 out1 out2). Qed.
Print Assumptions C59_through_accounts.

(** A direct take order and the same order through an account: the same trade, and the sender
    through the account pays exactly what the account then holds for a referrer more. *)
Theorem C59_direct_or_through e s x1 x2 g1 g2 s1 s2 out1 out2 : reachable s ->
  exec e s (IPlaceTake x1 g1) = Ok (s1, out1) -> exec e s (IPlaceOrder x2 g2) = Ok (s2, out2) ->
  ta_side g1 = pa_side g2 /\ ta_price g1 = pa_price g2 /\ ta_max_base g1 = pa_max_base g2 /\ ta_max_quote g1 = pa_max_quote g2 /\
    ta_type g1 = pa_type g2 /\ ta_limit g1 = pa_limit g2 -> pa_expiry g2 = 0 ->
  owns s (tx_signer x1) (tx_user_base x1) -> owns s (tx_signer x1) (tx_user_quote x1) ->
  stranger (s_w s) (invert_side (pa_side g2)) (Some (px_acct x2)) ->
  in_wallet s1 (tx_user_base x1) - in_wallet s (tx_user_base x1) = purse_base s2 x2 (pa_side g2) - purse_base s x2 (pa_side g2) /\
  in_wallet s1 (tx_user_quote x1) - in_wallet s (tx_user_quote x1) =
    purse_quote s2 x2 (pa_side g2) - purse_quote s x2 (pa_side g2) + (for_referrer s2 (px_acct x2) - for_referrer s (px_acct x2)) /\
  forall sd, orders (s_w s1) sd = orders (s_w s2) sd.
Proof. exact (direct_or_through e s x1 x2 g1 g2 s1 s2 out1 out2). Qed.
Print Assumptions C59_direct_or_through.

(** Users 2 and 3 sell 60 lots into user 1's bids of 40 at 95 and 50 at 94: user 2 through an
    account, with user 1's account passed along; user 3 through an account, without it; and
    user 3 directly. *)
Definition sell_args : place_args := mkPlaceArgs Ask 94 60 1000000 9 POImmediateOrCancel 0 DecrementTake 10.
Definition sell_direct : take_args := mkTakeArgs Ask 94 60 1000000 POImmediateOrCancel 10.
Definition by_two : place_ctx := place_by 2 Ask [101].
Definition by_three : place_ctx := place_by 3 Ask [].
Definition three_direct : take_ctx := mkTakeCtx 3 0 31 32 [].
Definition no_order_of (k : Z) (s : sys) (sd : side) : bool := forallb (fun x => negb (lf_owner (snd x) =? k)) (orders (s_w s) sd).
Lemma no_order_stranger k s sd : no_order_of k s sd = true -> stranger (s_w s) sd (Some k).
Proof.
  intros H t l Hin. unfold no_order_of in H. rewrite forallb_forall in H. specialize (H _ Hin). cbn [snd] in H.
  destruct (Z.eqb_spec (lf_owner l) k); [discriminate H|assumption].
Qed.
Example C59_case :
  let e := at_time 110 (Some 100) in
  let two := after e sample1 (IPlaceOrder by_two sell_args) in
  let three := after e sample1 (IPlaceOrder by_three sell_args) in
  let direct := after e sample1 (IPlaceTake three_direct sell_direct) in
  reachable sample1 /\
  succeeds e sample1 (IPlaceOrder by_two sell_args) = true /\ succeeds e sample1 (IPlaceOrder by_three sell_args) = true /\
  succeeds e sample1 (IPlaceTake three_direct sell_direct) = true /\
  stranger (s_w sample1) Bid (Some 102) /\ stranger (s_w sample1) Bid (Some 103) /\
  owns sample1 3 31 /\ owns sample1 3 32 /\
  length (waiting (s_w two)) = 0%nat /\ length (waiting (s_w three)) = 2%nat /\
  (purse_base two by_two Ask - purse_base sample1 by_two Ask, purse_quote two by_two Ask - purse_quote sample1 by_two Ask) = (-6000, 56777) /\
  (purse_base three by_three Ask - purse_base sample1 by_three Ask, purse_quote three by_three Ask - purse_quote sample1 by_three Ask) = (-6000, 56777) /\
  for_referrer three 103 - for_referrer sample1 103 = 23 /\
  (in_wallet direct 31 - in_wallet sample1 31, in_wallet direct 32 - in_wallet sample1 32) = (-6000, 56800) /\
  map (fun x => lf_qty (snd x)) (orders (s_w three) Bid) = [30].
Proof.
  cbv zeta. split; [exact sample1_reachable|]. do 3 (split; [vm_compute; reflexivity|]).
  split; [apply no_order_stranger; vm_compute; reflexivity|]. split; [apply no_order_stranger; vm_compute; reflexivity|].
  do 2 (split; [eexists; split; vm_compute; reflexivity|]). vm_compute. auto 20.
Qed.
(** Selling into one's own bids costs no fee: without [stranger] the amounts differ. *)
Example C59_own_orders :
  let e := at_time 110 (Some 100) in let x := place_by 1 Ask [] in
  let one := after e sample1 (IPlaceOrder x sell_args) in
  succeeds e sample1 (IPlaceOrder x sell_args) = true /\ no_order_of 101 sample1 Bid = false /\
  purse_quote one x Ask - purse_quote sample1 x Ask = 56800.
Proof. vm_compute. auto. Qed.
