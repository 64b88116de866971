(** C56, C40: an order, an edit, a deposit or a refill that its sender can pay for goes through. *)
From Coq Require Import ZArith List Bool.
From Verif Require Import Base Nodes OrderTree BookSide Heap Market OpenOrders Order Book Instructions
  SpecBook SpecOrder SpecLedger SpecEvents SpecSystem SpecMore SpecControl SpecLive LiveIx LiveEdit LivePay Samples.
Import ListNotations.
Open Scope Z_scope.

(** C56: whatever is on the book, whoever owns it and whatever waits in the queue, an order
    from someone who can pay for it goes through as long as no counter overflows, or is
    turned down for one of the reasons of [refusal], each with its own error. *)
Theorem C56_order_goes_through e s x g oracle a : reachable s -> trading e s oracle -> fair_place g ->
  spacious (s_w s) (pa_max_base g) (pa_max_quote g) (pa_limit g) -> (may_rest (pa_type g) = true -> side_room (s_w s) (pa_side g)) ->
  may_place s x (pa_side g) (pa_max_base g) (pa_max_quote g) a ->
  (exists s' out, exec e s (IPlaceOrder x g) = Ok (s', out)) \/
  (exists o er, order_of_args (e_now e) g = Ok (Some o) /\ exec e s (IPlaceOrder x g) = Err er /\
     refusal (s_w s) o oracle (Some (px_acct x)) (px_acct x) (e_now e) (pa_limit g) (px_rem x) er).
Proof. exact (place_order_goes e s x g oracle a). Qed.
Print Assumptions C56_order_goes_through.

(** C56: limit, post-only, immediate-or-cancel and market orders that do not ask for the
    transaction to be aborted on a self-trade are never turned down. *)
Theorem C56_plain_order_succeeds e s x g oracle a : reachable s -> trading e s oracle -> fair_place g ->
  spacious (s_w s) (pa_max_base g) (pa_max_quote g) (pa_limit g) -> (may_rest (pa_type g) = true -> side_room (s_w s) (pa_side g)) ->
  may_place s x (pa_side g) (pa_max_base g) (pa_max_quote g) a ->
  pa_self_trade g <> AbortTransaction -> pa_type g <> POPostOnlySlide -> pa_type g <> POFillOrKill ->
  exists s' out, exec e s (IPlaceOrder x g) = Ok (s', out).
Proof. exact (plain_goes e s x g oracle a). Qed.
Print Assumptions C56_plain_order_succeeds.

(** C56: the same for orders pegged to the oracle. *)
Theorem C56_pegged_goes_through e s x g oracle a : reachable s -> trading e s oracle -> fair_peg (w_mkt (s_w s)) g ->
  spacious (s_w s) (ga_max_base g) (ga_max_quote g) (ga_limit g) -> side_room (s_w s) (ga_side g) ->
  may_place s x (ga_side g) (ga_max_base g) (ga_max_quote g) a ->
  (exists s' out, exec e s (IPlacePegged x g) = Ok (s', out)) \/
  (exists o er, order_of_peg_args (w_mkt (s_w s)) (e_now e) g = Ok (Some o) /\ exec e s (IPlacePegged x g) = Err er /\
     refusal (s_w s) o oracle (Some (px_acct x)) (px_acct x) (e_now e) (ga_limit g) (px_rem x) er).
Proof. exact (place_pegged_goes e s x g oracle a). Qed.
Print Assumptions C56_pegged_goes_through.

(** C56: the same for orders sent without an open orders account: the vault always holds what
    the taker is to receive. *)
Theorem C56_take_goes_through e s x g oracle : reachable s -> trading e s oracle -> fair_take g ->
  spacious (s_w s) (ta_max_base g) (ta_max_quote g) (ta_limit g) ->
  may_take s x (ta_side g) (ta_max_base g) (ta_max_quote g) ->
  (exists s' out, exec e s (IPlaceTake x g) = Ok (s', out)) \/
  (exists o er, order_of_take_args g = Ok o /\ exec e s (IPlaceTake x g) = Err er /\
     refusal (s_w s) o oracle None (tx_signer x) (e_now e) (ta_limit g) (tx_rem x) er).
Proof. exact (place_take_goes e s x g oracle). Qed.
Print Assumptions C56_take_goes_through.

(** C56: editing an order by client id, expecting [n] lots: if what is left of the new order
    can be paid for once the old one is cancelled, the edit goes through or is turned down for
    a reason of [refusal]. *)
Theorem C56_edit_goes_through e s x c n g a s1 q a1 oracle : reachable s -> trading e s oracle -> fair_place g -> u64 c -> 0 <= n < 2 ^ 63 ->
  pa_max_base g < 2 ^ 63 -> pa_max_quote g < 2 ^ 63 ->
  acct_get (px_acct x) (w_accts (s_w s)) = Some a -> p_bids_base (a_pos a) + p_asks_base (a_pos a) < 2 ^ 63 ->
  exec e s (ICancelClient (px_signer x) (px_acct x) c) = Ok (s1, OLots q) ->
  spacious (s_w s1) (pa_max_base g - (n - q)) (pa_max_quote g) (pa_limit g) -> (may_rest (pa_type g) = true -> side_room (s_w s1) (pa_side g)) ->
  may_place s1 x (pa_side g) (pa_max_base g - (n - q)) (pa_max_quote g) a1 ->
  (exists s' out, exec e s (IEditOrder x c n g) = Ok (s', out)) \/
  (exists o er, order_of_args (e_now e) (resize g (pa_max_base g - (n - q))) = Ok (Some o) /\ exec e s (IEditOrder x c n g) = Err er /\
     refusal (s_w s1) o oracle (Some (px_acct x)) (px_acct x) (e_now e) (pa_limit g) (px_rem x) er).
Proof. exact (edit_goes e s x c n g a s1 q a1 oracle). Qed.
Print Assumptions C56_edit_goes_through.

(** C56: the same for editing into an order pegged to the oracle. *)
Theorem C56_edit_pegged_goes_through e s x c n g a s1 q a1 oracle : reachable s -> trading e s oracle -> fair_peg (w_mkt (s_w s)) g -> u64 c -> 0 <= n < 2 ^ 63 ->
  ga_max_base g < 2 ^ 63 -> ga_max_quote g < 2 ^ 63 ->
  acct_get (px_acct x) (w_accts (s_w s)) = Some a -> p_bids_base (a_pos a) + p_asks_base (a_pos a) < 2 ^ 63 ->
  exec e s (ICancelClient (px_signer x) (px_acct x) c) = Ok (s1, OLots q) ->
  spacious (s_w s1) (ga_max_base g - (n - q)) (ga_max_quote g) (ga_limit g) -> side_room (s_w s1) (ga_side g) ->
  may_place s1 x (ga_side g) (ga_max_base g - (n - q)) (ga_max_quote g) a1 ->
  (exists s' out, exec e s (IEditPegged x c n g) = Ok (s', out)) \/
  (exists o er, order_of_peg_args (w_mkt (s_w s)) (e_now e) (resize_peg g (ga_max_base g - (n - q))) = Ok (Some o) /\ exec e s (IEditPegged x c n g) = Err er /\
     refusal (s_w s1) o oracle (Some (px_acct x)) (px_acct x) (e_now e) (ga_limit g) (px_rem x) er).
Proof. exact (edit_peg_goes e s x c n g a s1 q a1 oracle). Qed.
Print Assumptions C56_edit_pegged_goes_through.

(** User 3 buys through three price levels, one of them expired and one pegged; a sale and a
    pegged bid; user 1 runs into their own order; a fill-or-kill order is too large. *)
Definition buys : place_args := mkPlaceArgs Bid 107 60 10000 6 POLimit 0 DecrementTake 10.
Definition pegged_bid : peg_args := mkPegArgs Bid (-3) 99 12 10000 7 POPostOnlySlide 0 DecrementTake 10.
Definition sells : take_args := mkTakeArgs Ask 90 70 10000 POImmediateOrCancel 10.
Definition own_order : place_args := mkPlaceArgs Bid 107 60 10000 6 POLimit 0 AbortTransaction 10.
Definition too_large : place_args := mkPlaceArgs Bid 107 60 10000 6 POFillOrKill 0 DecrementTake 10.
Definition now160 : env := at_time 160 (Some 100).
Definition taker3 : take_ctx := mkTakeCtx 3 0 31 32 [].
Example C56_case : reachable sample1 /\ trading now160 sample1 (Some 100) /\
  (fair_place buys /\ spacious (s_w sample1) 60 10000 10 /\ side_room (s_w sample1) Bid /\
   (exists a, may_place sample1 (place_by 3 Bid []) Bid 60 10000 a)) /\
  (fair_peg (w_mkt (s_w sample1)) pegged_bid /\ (exists a, may_place sample1 (place_by 3 Bid []) Bid 12 10000 a)) /\
  (fair_take sells /\ may_take sample1 taker3 Ask 70 10000) /\
  map (succeeds now160 sample1) [IPlaceOrder (place_by 3 Bid []) buys; IPlacePegged (place_by 3 Bid []) pegged_bid; IPlaceTake taker3 sells] = [true; true; true] /\
  err_of (exec now160 sample1 (IPlaceOrder (place_by 1 Bid []) own_order)) = Some WouldSelfTrade /\
  err_of (exec now160 sample1 (IPlaceOrder (place_by 3 Bid []) too_large)) = Some WouldExecutePartially.
Proof.
  split; [exact sample1_reachable|].
  split; [apply trading_b_ok; vm_compute; reflexivity|].
  split; [split; [constructor; vm_compute; repeat split; discriminate|]|].
  { split; [apply spacious_b_ok; vm_compute; reflexivity|]. split; [apply Nat.ltb_lt; vm_compute; reflexivity|].
    apply (may_place_check_ok _ _ _ _ _ 5). vm_compute. reflexivity. }
  split; [split; [constructor; vm_compute; repeat split; try discriminate; auto|]|].
  { apply (may_place_check_ok _ _ _ _ _ 5). vm_compute. reflexivity. }
  split; [split; [constructor; vm_compute; repeat split; try discriminate; auto|apply may_take_b_ok; vm_compute; reflexivity]|].
  split; [vm_compute; reflexivity|]. split; vm_compute; reflexivity.
Qed.

(** User 1 believes 25 lots were resting where 20 are, and asks for 25 at another price, or at
    another peg. *)
Definition now110 : env := at_time 110 (Some 100).
Definition edit25 : place_args := mkPlaceArgs Ask 106 25 10000 9 POLimit 0 DecrementTake 10.
Definition edit_peg25 : peg_args := mkPegArgs Ask 9 101 25 10000 9 POLimit 0 DecrementTake 10.
Definition edit_start : sys := after now110 sample1 (ICancelClient 1 101 1).
Example C56_edit_case : reachable sample1 /\ trading now110 sample1 (Some 100) /\ fair_place edit25 /\ fair_peg (w_mkt (s_w sample1)) edit_peg25 /\
  (exists a, acct_get 101 (w_accts (s_w sample1)) = Some a /\ p_bids_base (a_pos a) + p_asks_base (a_pos a) < 2 ^ 63) /\
  exec now110 sample1 (ICancelClient 1 101 1) = Ok (edit_start, OLots 20) /\
  spacious (s_w edit_start) (25 - (25 - 20)) 10000 10 /\ side_room (s_w edit_start) Ask /\
  (exists a1, may_place edit_start (place_by 1 Ask []) Ask (25 - (25 - 20)) 10000 a1) /\
  map (succeeds now110 sample1) [IEditOrder (place_by 1 Ask []) 1 25 edit25; IEditPegged (place_by 1 Ask []) 1 25 edit_peg25] = [true; true].
Proof.
  split; [exact sample1_reachable|].
  split; [apply trading_b_ok; vm_compute; reflexivity|].
  split; [constructor; vm_compute; repeat split; discriminate|].
  split; [constructor; vm_compute; repeat split; try discriminate; auto|].
  split; [eexists; split; [vm_compute; reflexivity|vm_compute; reflexivity]|].
  split; [vm_compute; reflexivity|].
  split; [apply spacious_b_ok; vm_compute; reflexivity|]. split; [apply Nat.ltb_lt; vm_compute; reflexivity|].
  split; [apply (may_place_check_ok _ _ _ _ _ 5); vm_compute; reflexivity|].
  vm_compute. reflexivity.
Qed.

(** C40: anybody may deposit into an account what they can pay: on a market that is open and
    not expired such a deposit goes through, whatever else is on the market. *)
Theorem C40_deposit_goes_through e s u k a ub uq b q : reachable s -> s_closed s = false -> ~ expired (e_now e) (w_mkt (s_w s)) ->
  acct_get k (w_accts (s_w s)) = Some a -> u <> c_authority (m_cfg (w_mkt (s_w s))) -> u64 b -> u64 q ->
  affords (s_tok s) ub u (c_base_mint (m_cfg (w_mkt (s_w s)))) (c_base_vault (m_cfg (w_mkt (s_w s)))) 0 b ->
  affords (s_tok s) uq u (c_quote_mint (m_cfg (w_mkt (s_w s)))) (c_quote_vault (m_cfg (w_mkt (s_w s)))) 0 q ->
  exists s', exec e s (IDeposit u k ub uq b q) = Ok (s', ONone) /\ deposited s k ub uq b q a s'.
Proof. exact (deposit_goes e s u k a ub uq b q). Qed.
Print Assumptions C40_deposit_goes_through.

(** C40: a refill goes through if its sender can pay what is missing. *)
Theorem C40_refill_goes_through e s u k a ub uq b q : reachable s -> s_closed s = false -> ~ expired (e_now e) (w_mkt (s_w s)) ->
  acct_get k (w_accts (s_w s)) = Some a -> u <> c_authority (m_cfg (w_mkt (s_w s))) -> u64 b -> u64 q ->
  affords (s_tok s) ub u (c_base_mint (m_cfg (w_mkt (s_w s)))) (c_base_vault (m_cfg (w_mkt (s_w s)))) 0 (Z.max 0 (b - p_base_free (a_pos a))) ->
  affords (s_tok s) uq u (c_quote_mint (m_cfg (w_mkt (s_w s)))) (c_quote_vault (m_cfg (w_mkt (s_w s)))) 0 (Z.max 0 (q - p_quote_free (a_pos a))) ->
  exists s', exec e s (IRefill u k ub uq b q) = Ok (s', ONone) /\
    deposited s k ub uq (Z.max 0 (b - p_base_free (a_pos a))) (Z.max 0 (q - p_quote_free (a_pos a))) a s'.
Proof. exact (refill_goes e s u k a ub uq b q). Qed.
Print Assumptions C40_refill_goes_through.

(** User 2 pays into user 3's account; user 3 refills to more base than the wallet holds, as
    the account has the rest, and one unit more is too much. *)
Example C40_goes_through_case : exists a, reachable sample4 /\ s_closed sample4 = false /\ ~ expired 170 (w_mkt (s_w sample4)) /\
  acct_get 103 (w_accts (s_w sample4)) = Some a /\ 2 <> c_authority (m_cfg (w_mkt (s_w sample4))) /\ p_base_free (a_pos a) = 3500 /\
  affords (s_tok sample4) 21 2 (c_base_mint (m_cfg (w_mkt (s_w sample4)))) (c_base_vault (m_cfg (w_mkt (s_w sample4)))) 0 5 /\
  affords (s_tok sample4) 22 2 (c_quote_mint (m_cfg (w_mkt (s_w sample4)))) (c_quote_vault (m_cfg (w_mkt (s_w sample4)))) 0 7 /\
  affords (s_tok sample4) 31 3 (c_base_mint (m_cfg (w_mkt (s_w sample4)))) (c_base_vault (m_cfg (w_mkt (s_w sample4)))) 0 (Z.max 0 (1000003500 - p_base_free (a_pos a))) /\
  amounts_of sample4 [31] = [Some 1000000000] /\
  map (succeeds (at_time 170 None) sample4) [IDeposit 2 103 21 22 5 7; IRefill 3 103 31 32 1000003500 0; IRefill 3 103 31 32 1000003501 0] = [true; true; false].
Proof.
  eexists. split; [exact sample4_reachable|]. split; [vm_compute; reflexivity|]. split; [unfold expired; vm_compute; intuition congruence|].
  split; [vm_compute; reflexivity|]. split; [vm_compute; congruence|]. split; [vm_compute; reflexivity|].
  do 3 (split; [apply affords_b_ok; vm_compute; reflexivity|]). vm_compute. auto.
Qed.
