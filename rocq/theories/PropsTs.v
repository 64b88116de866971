(** C71-C76: the TypeScript client. *)
From Coq Require Import ZArith List Bool Lia.
From Verif Require Import Base Nodes OrderTree BookSide Heap Market OpenOrders Order Book Instructions
  SpecBook SpecFees SpecOrder SpecLedger SpecEvents SpecSystem SpecControl SpecExit SpecFit Samples PropsFit Ts SpecTs TsFacts TsMore TsSend.
Import ListNotations.
Open Scope Z_scope.

(** Three users; asks at 105 (until second 150, and one without end), 107; a bid at 95. *)
Definition shop_calls : list (env * instr) :=
  open_accounts 10 ++
  [(at_time 100 None, limit_until 1 Ask 105 20 1 150); (at_time 101 None, limit_order 2 Ask 107 30 2);
   (at_time 102 None, limit_order 2 Ask 105 5 3); (at_time 103 None, limit_order 1 Bid 95 40 4);
   (at_time 104 None, limit_order 1 Ask 107 7 5)].
Definition shop : sys := the_sys (run (sample_market 10 100 200 400) shop_calls).
Lemma shop_chain : run_on_chain shop.
Proof.
  unfold shop, sample_market. apply sample_chain; [|vm_compute; reflexivity].
  unfold shop_calls, open_accounts. cbn [app]. repeat (apply Forall_cons; [split; [reflexivity|cbn; unfold is_address, is_u32; lia]|]). apply Forall_nil.
Qed.
Lemma shop_reachable : reachable shop.
Proof. unfold shop, sample_market. apply sample_reachable. vm_compute. reflexivity. Qed.
(** Lots, price and whether marked as expired. *)
Definition seen (o : ts_order) : Z * Z * bool := (lf_qty (to_leaf o), to_price o, to_expired o).
Definition seen_all (r : res (list ts_order)) : option (list (Z * Z * bool)) :=
  match r with Ok l => Some (map seen l) | Err _ => None end.

(** C71: the limit orders the client reads off a side are those resting there, in the order in
    which the program goes through them and at the prices the program trades them; side, price
    and number give the id.  Missing: a side with pegged orders, see [C71_pegged_refuted]. *)
Theorem C71_reads_book_partial s sd clock : reachable s ->
  exists L, ts_fixed_items (w_book (s_w s) sd) sd clock = Ok L /\
    map to_leaf L = tree_orders (w_book (s_w s) sd) Fixed /\
    (forall o, In o L -> to_side o = sd /\ is_u64 (to_seq o) /\ lf_key (to_leaf o) = new_node_key sd (to_price o) (to_seq o)) /\
    (forall now oracle, tree_orders (w_book (s_w s) sd) OraclePegged = [] \/ oracle = None ->
      exists items, iter_all (w_book (s_w s) sd) now oracle = Ok items /\
        map (fun i => (im_leaf i, im_price i)) items = map (fun o => (to_leaf o, to_price o)) L).
Proof. exact (reads_book s sd clock). Qed.
Print Assumptions C71_reads_book_partial.

(** C71: with the time of the chain, an order is marked as expired exactly when the program
    would not trade it, except in the very second of its expiry. *)
Theorem C71_expiry_partial s sd clock L : run_on_chain s -> 0 <= clock < 2 ^ 64 ->
  ts_fixed_items (w_book (s_w s) sd) sd clock = Ok L ->
  exists items, iter_all (w_book (s_w s) sd) clock None = Ok items /\
    Forall2 (fun i o => im_leaf i = to_leaf o /\
      (im_state i = Invalid <-> to_expired o = true \/ lf_tif (to_leaf o) <> 0 /\ lf_ts (to_leaf o) + lf_tif (to_leaf o) = clock)) items L.
Proof. exact (reads_expiry s sd clock L). Qed.
Print Assumptions C71_expiry_partial.

Example C71_case : run_on_chain shop /\
  seen_all (ts_fixed_items (w_book (s_w shop) Ask) Ask 0) =
    Some [(20, 105, false); (5, 105, false); (30, 107, false); (7, 107, false)] /\
  seen_all (ts_fixed_items (w_book (s_w shop) Ask) Ask 151) =
    Some [(20, 105, true); (5, 105, false); (30, 107, false); (7, 107, false)].
Proof. split; [exact shop_chain|]. vm_compute. auto. Qed.

(** C71: without pegged orders on the side, the depth table holds the best prices, each with
    all the lots resting at it. *)
Theorem C71_depth_partial s sd clock depth : reachable s -> 0 <= depth ->
  (forall t l, In (t, l) (orders (s_w s) sd) -> t = Fixed) ->
  exists levels, ts_l2 (w_book (s_w s) sd) sd clock depth = Ok levels /\ depth_table (s_w s) sd depth levels.
Proof. exact (l2_table s sd clock depth). Qed.
Print Assumptions C71_depth_partial.

Example C71_depth_case : reachable shop /\ map fst (orders (s_w shop) Ask) = [Fixed; Fixed; Fixed; Fixed] /\
  ts_l2 (w_book (s_w shop) Ask) Ask 0 8 = Ok [(105, 25); (107, 37)] /\
  ts_l2 (w_book (s_w shop) Ask) Ask 0 1 = Ok [(105, 25)] /\ ts_l2 (w_book (s_w shop) Bid) Bid 0 8 = Ok [(95, 40)].
Proof. split; [exact shop_reachable|]. vm_compute. auto. Qed.

(** C71: one pegged order makes all three readers fail. *)
Theorem C71_pegged_fails s sd clock : reachable s ->
  (forall t l, In (t, l) (orders (s_w s) sd) -> t = Fixed) \/
  ts_items (w_book (s_w s) sd) sd clock = Err SomeError /\ ts_best (w_book (s_w s) sd) sd clock = Err SomeError /\
  forall depth, ts_l2 (w_book (s_w s) sd) sd clock depth = Err SomeError.
Proof. exact (pegged_fails s sd clock). Qed.
Print Assumptions C71_pegged_fails.

(** C71 refuted for sides with a pegged order: the program lists three orders, the client
    fails. *)
Theorem C71_pegged_refuted : exists s sd clock, reachable s /\
  match iter_all (w_book (s_w s) sd) clock (Some 100) with Ok l => length l = 3%nat | Err _ => False end /\
  is_ok (ts_items (w_book (s_w s) sd) sd clock) = false.
Proof. exists sample1, Ask, 120. split; [exact sample1_reachable|]. vm_compute. auto. Qed.
Print Assumptions C71_pegged_refuted.

(** C71 refuted for the second of expiry: the program no longer trades the order, the client
    does not mark it. *)
Theorem C71_expiry_refuted : exists s sd clock, run_on_chain s /\
  match iter_all (w_book (s_w s) sd) clock None, ts_fixed_items (w_book (s_w s) sd) sd clock with
  | Ok (i :: _), Ok (o :: _) => im_leaf i = to_leaf o /\ im_state i = Invalid /\ to_expired o = false
  | _, _ => False
  end.
Proof. exists shop, Ask, 150. split; [exact shop_chain|]. vm_compute. auto. Qed.
Print Assumptions C71_expiry_refuted.

(** C71 refuted for the best order: it may be one the client itself marks as expired, with a
    live one behind it, and the depth table counts it. *)
Theorem C71_best_refuted : exists s sd clock, run_on_chain s /\
  match ts_best (w_book (s_w s) sd) sd clock, ts_items (w_book (s_w s) sd) sd clock with
  | Ok (Some o), Ok (_ :: o' :: _) => to_expired o = true /\ to_expired o' = false
  | _, _ => False
  end /\ ts_l2 (w_book (s_w s) sd) sd clock 1 = Ok [(105, 25)].
Proof. exists shop, Ask, 200. split; [exact shop_chain|]. vm_compute. auto. Qed.
Print Assumptions C71_best_refuted.

(** C72: for an account without pegged orders, the client lists exactly its resting orders,
    each once.  Missing: accounts with pegged orders, see [C72_pegged_fails]. *)
Theorem C72_own_orders_partial s k a clock : reachable s -> acct_get k (w_accts (s_w s)) = Some a ->
  (forall i oo, order_at a i = Ok oo -> oo_free oo = false -> oo_tree oo = Fixed) ->
  exists L, ts_account_items (w_book (s_w s) Bid) (w_book (s_w s) Ask) clock a = Ok L /\
    NoDup (map (fun o => (to_side o, to_leaf o)) L) /\
    (forall o, In o L -> lf_key (to_leaf o) = new_node_key (to_side o) (to_price o) (to_seq o)) /\
    forall sd l, In (sd, l) (map (fun o => (to_side o, to_leaf o)) L) <-> In (Fixed, l) (orders (s_w s) sd) /\ lf_owner l = k.
Proof. exact (own_orders s k a clock). Qed.
Print Assumptions C72_own_orders_partial.

Definition own_seen (s : sys) (k : Z) : option (list (side * Z * Z)) :=
  match acct_get k (w_accts (s_w s)) with
  | Some a => match ts_account_items (w_book (s_w s) Bid) (w_book (s_w s) Ask) 0 a with
              | Ok l => Some (map (fun o => (to_side o, lf_qty (to_leaf o), to_price o)) l) | Err _ => None end
  | None => None
  end.
(** The slot of a filled order whose event still waits is in use but lists nothing. *)
Definition shop_sold : sys :=
  the_sys (run (sample_market 10 100 200 400) (shop_calls ++ [(at_time 105 None, limit_order 3 Bid 105 22 6)])).
Lemma shop_sold_reachable : reachable shop_sold.
Proof. unfold shop_sold, sample_market. apply sample_reachable. vm_compute. reflexivity. Qed.
Example C72_case : reachable shop_sold /\
  own_seen shop 101 = Some [(Ask, 20, 105); (Bid, 40, 95); (Ask, 7, 107)] /\
  own_seen shop_sold 101 = Some [(Bid, 40, 95); (Ask, 7, 107)] /\ own_seen shop_sold 102 = Some [(Ask, 30, 107); (Ask, 3, 105)] /\
  option_map (fun a => map (fun oo => (oo_free oo, oo_tree oo)) (firstn 4 (a_orders a))) (acct_get 101 (w_accts (s_w shop_sold))) =
    Some [(false, Fixed); (false, Fixed); (false, Fixed); (true, Fixed)].
Proof. split; [exact shop_sold_reachable|]. vm_compute. auto. Qed.

(** C72: the account's list fails as soon as it has a pegged order. *)
Theorem C72_pegged_fails s k a clock sd l : reachable s -> acct_get k (w_accts (s_w s)) = Some a ->
  In (OraclePegged, l) (orders (s_w s) sd) -> lf_owner l = k ->
  ts_account_items (w_book (s_w s) Bid) (w_book (s_w s) Ask) clock a = Err SomeError.
Proof. exact (own_pegged_fails s k a clock sd l). Qed.
Print Assumptions C72_pegged_fails.
Example C72_pegged_case : reachable sample1 /\ map (fun x => (fst x, lf_owner (snd x))) (orders (s_w sample1) Ask) =
    [(Fixed, 101); (Fixed, 101); (OraclePegged, 102)] /\ own_seen sample1 102 = None.
Proof. split; [exact sample1_reachable|]. vm_compute. auto. Qed.

(** C73: what the client shows as an account's balance is all it is due, less what its waiting
    fills will bring, plus fees locked beyond need.  Missing: the waiting fills, which are
    never counted, see [C73_fills_refuted]. *)
Theorem C73_balance_partial s k a : reachable s -> acct_get k (w_accts (s_w s)) = Some a ->
  acct_get (a_owner a) (w_accts (s_w s)) = None ->
  exists base quote, ts_balance (w_mkt (s_w s)) (w_heap (s_w s)) a = Ok (base, quote) /\
    base = base_due k a (s_w s) - base_arriving k (s_w s) /\
    quote = quote_due k a (s_w s) - quote_arriving k (s_w s) + (p_locked_fees (a_pos a) - fees_to_come k (s_w s)) /\
    fees_to_come k (s_w s) <= p_locked_fees (a_pos a).
Proof. exact (shown_balance s k a). Qed.
Print Assumptions C73_balance_partial.

Definition shown (s : sys) (k : Z) : option (Z * Z * (Z * Z) * (Z * Z)) :=
  match acct_get k (w_accts (s_w s)) with
  | Some a => match ts_balance (w_mkt (s_w s)) (w_heap (s_w s)) a with
              | Ok b => Some (b, (base_due k a (s_w s), quote_due k a (s_w s)), (base_arriving k (s_w s), quote_arriving k (s_w s)))
              | Err _ => None end
  | None => None
  end.
Example C73_case : reachable shop_sold /\ acct_get 1 (w_accts (s_w shop_sold)) = None /\
  shown shop 101 = Some ((2700, 38008), (2700, 38008), (0, 0)) /\
  shown shop_sold 101 = Some ((2700, 38008), (700, 59004), (-2000, 20996)).
Proof. split; [exact shop_sold_reachable|]. vm_compute. auto. Qed.

(** C73 refuted with fills waiting: the maker in a fill is the open orders account, and the
    client compares it with the owner's wallet. *)
Theorem C73_fills_refuted : exists s k a, reachable s /\ acct_get k (w_accts (s_w s)) = Some a /\
  match ts_balance (w_mkt (s_w s)) (w_heap (s_w s)) a with
  | Ok (base, quote) => base_due k a (s_w s) < base /\ quote < quote_due k a (s_w s)
  | Err _ => False
  end.
Proof.
  exists shop_sold, 101. destruct (acct_get 101 (w_accts (s_w shop_sold))) as [a|] eqn:E; [|vm_compute in E; discriminate E].
  exists a. split; [exact shop_sold_reachable|]. split; [reflexivity|]. vm_compute in E. injection E as <-. vm_compute. auto.
Qed.
Print Assumptions C73_fills_refuted.

(** C74: the events the client reads are the waiting ones, oldest first. *)
Theorem C74_raw_events s : reachable s -> ts_raw_events (w_heap (s_w s)) = Ok (waiting (s_w s)).
Proof. exact (raw_events s). Qed.
Print Assumptions C74_raw_events.
(** C74: the accounts it suggests for consuming are those of the first twenty-one slots of the
    heap, in use or not, so that an event waiting in one of them can be consumed with them.
    Missing: the other slots, see [C74_stuck_refuted]. *)
Theorem C74_accounts_partial s e i new : reachable s -> In (e, i) (queue_of (s_w s)) -> i < 21 ->
  In (ev_owner e) (map jk_address (ts_accounts_to_consume (w_heap (s_w s)) new)).
Proof. exact (early_listed s e i new). Qed.
Print Assumptions C74_accounts_partial.
Example C74_case : reachable shop_sold /\
  map (fun x => (snd x, ev_owner (fst x))) (queue_of (s_w shop_sold)) = [(0, 101); (1, 102)] /\
  firstn 3 (map jk_address (ts_accounts_to_consume (w_heap (s_w shop_sold)) 500)) = [101; 102; 0] /\
  length (ts_accounts_to_consume (w_heap (s_w shop_sold)) 500) = 21%nat.
Proof. split; [exact shop_sold_reachable|]. vm_compute. auto. Qed.

(** Twenty-one orders of user 1 and one of user 2 are filled; user 1's events are consumed. *)
Definition crowd_calls : list (env * instr) :=
  open_accounts 10 ++ map (fun i => (at_time 100 None, limit_order 1 Ask 10 1 (Z.of_nat i))) (seq 1 21) ++
  [(at_time 101 None, limit_order 2 Ask 11 1 1);
   (at_time 102 None, IPlaceOrder (place_by 3 Bid []) (mkPlaceArgs Bid 11 22 1000000 1 POLimit 0 DecrementTake 40));
   (at_time 103 None, IConsume 0 8 [101]); (at_time 103 None, IConsume 0 8 [101]); (at_time 103 None, IConsume 0 8 [101])].
Definition crowd : sys := the_sys (run (sample_market 1 1 0 0) crowd_calls).
Lemma crowd_reachable : reachable crowd.
Proof. unfold crowd, sample_market. apply sample_reachable. vm_compute. reflexivity. Qed.
Lemma crowd_facts : map (fun x => (snd x, ev_owner (fst x))) (queue_of (s_w crowd)) = [(21, 102)] /\
  map (fun i => node_owner (hn_event (h_nodes (w_heap (s_w crowd)) (Z.of_nat i)))) (seq 0 21) = repeat 101 21.
Proof. vm_compute. auto. Qed.
Lemma crowd_works : succeeds (at_time 104 None) crowd (IConsume 0 8 (repeat 101 21)) = true.
Proof. vm_compute. reflexivity. Qed.

(** C74 refuted in general: with an event waiting, consuming with the suggested accounts may
    change nothing, however often it is repeated. *)
Theorem C74_stuck_refuted : exists s, reachable s /\ waiting (s_w s) <> [] /\
  (forall new e admin limit s' out,
    exec e s (IConsume admin limit (map jk_address (ts_accounts_to_consume (w_heap (s_w s)) new))) = Ok (s', out) -> s' = s) /\
  exists new, succeeds (at_time 104 None) s (IConsume 0 8 (map jk_address (ts_accounts_to_consume (w_heap (s_w s)) new))) = true.
Proof.
  destruct (stuck crowd [(21, 102)] (repeat 101 21) crowd_reachable (proj1 crowd_facts) (proj2 crowd_facts)) as (H1 & H2 & H3).
  - intros i k [E|[]] Hin. injection E as _ <-. apply repeat_spec in Hin. discriminate Hin.
  - discriminate.
  - exists crowd. split; [exact crowd_reachable|]. split; [exact H1|]. split; [exact H3|]. exists 500. rewrite H2. exact crowd_works.
Qed.
Print Assumptions C74_stuck_refuted.

(** C74 refuted for one account's events: the helper compares two objects that are never the
    same, so that the instruction it builds changes nothing in any state. *)
Theorem C74_for_account_nothing e s admin key new rem s' out : jk_object key < new ->
  exec e s (IConsumeGiven admin (ts_slots_to_consume (w_heap (s_w s)) key new) rem) = Ok (s', out) -> s' = s.
Proof. exact (for_account_nothing e s admin key new rem s' out). Qed.
Print Assumptions C74_for_account_nothing.
Example C74_for_account_case : reachable shop_sold /\ map ev_owner (waiting (s_w shop_sold)) = [101; 102] /\
  succeeds (at_time 106 None) shop_sold (IConsumeGiven 0 (ts_slots_to_consume (w_heap (s_w shop_sold)) (mkKey 7 101) 500) [101]) = true.
Proof. split; [exact shop_sold_reachable|]. vm_compute. auto. Qed.

(** C75: up to fifty transactions are each looked at once.  Missing: more than fifty, see
    [C75_many_missed]. *)
Theorem C75_few_partial sigs : (length sigs <= 50)%nat -> concat (ts_batches sigs) = sigs.
Proof. exact (few_signatures sigs). Qed.
Print Assumptions C75_few_partial.
Example C75_case : (length [7; 8; 9] <= 50)%nat /\ ts_batches [7; 8; 9] = [[]; [7; 8; 9]].
Proof. split; [cbn; lia|]. vm_compute. reflexivity. Qed.
(** C75 refuted for more: none but the first fifty are looked at, and those repeatedly. *)
Theorem C75_many_missed sigs : NoDup sigs -> (50 < length sigs)%nat ->
  (forall i, (50 <= i)%nat -> forall x, nth_error sigs i = Some x -> ~ In x (concat (ts_batches sigs))) /\ ~ NoDup (concat (ts_batches sigs)).
Proof. exact (many_signatures sigs). Qed.
Print Assumptions C75_many_missed.
Example C75_many_case : NoDup (map Z.of_nat (seq 0 60)) /\ (50 < length (map Z.of_nat (seq 0 60)))%nat /\
  nth_error (map Z.of_nat (seq 0 60)) 55 = Some 55 /\ map (@length Z) (ts_batches (map Z.of_nat (seq 0 60))) = [0; 50; 50]%nat.
Proof.
  split; [|split; [rewrite map_length, seq_length; lia|vm_compute; auto]].
  apply FinFun.Injective_map_NoDup; [intros x y H; lia|apply seq_NoDup].
Qed.

(** C75 refuted for the search by mints: it finds no market account, whatever the mints. *)
Theorem C75_mints_find_nothing base quote disc contents : length base = 32%nat -> length quote = 32%nat -> sized disc contents ->
  ts_by_mints base quote (market_bytes disc contents) = false.
Proof. exact (never_found base quote disc contents). Qed.
Print Assumptions C75_mints_find_nothing.
(** C75: with the offsets of the two fields it would find exactly the markets of the pair. *)
Theorem C75_right_offsets base quote disc contents : length base = 32%nat -> length quote = 32%nat -> sized disc contents ->
  memcmp 576 base (market_bytes disc contents) && memcmp 608 quote (market_bytes disc contents) = true <->
  base = contents FBaseMint /\ quote = contents FQuoteMint.
Proof. exact (right_offsets base quote disc contents). Qed.
Print Assumptions C75_right_offsets.
Definition field_size (f : market_field) : nat :=
  match find (fun x => match fst x, f with
    | FBump, FBump | FBaseDecimals, FBaseDecimals | FQuoteDecimals, FQuoteDecimals | FPadding1, FPadding1
    | FMarketAuthority, FMarketAuthority | FTimeExpiry, FTimeExpiry | FCollectFeeAdmin, FCollectFeeAdmin
    | FOpenOrdersAdmin, FOpenOrdersAdmin | FConsumeEventsAdmin, FConsumeEventsAdmin | FCloseMarketAdmin, FCloseMarketAdmin
    | FName, FName | FBids, FBids | FAsks, FAsks | FEventHeap, FEventHeap | FOracleA, FOracleA | FOracleB, FOracleB
    | FOracleConfig, FOracleConfig | FQuoteLotSize, FQuoteLotSize | FBaseLotSize, FBaseLotSize | FSeqNum, FSeqNum
    | FRegistrationTime, FRegistrationTime | FMakerFee, FMakerFee | FTakerFee, FTakerFee | FFeesAccrued, FFeesAccrued
    | FFeesToReferrers, FFeesToReferrers | FReferrerRebatesAccrued, FReferrerRebatesAccrued | FFeesAvailable, FFeesAvailable
    | FMakerVolume, FMakerVolume | FTakerVolumeWoOo, FTakerVolumeWoOo | FBaseMint, FBaseMint | FQuoteMint, FQuoteMint
    | FMarketBaseVault, FMarketBaseVault | FBaseDepositTotal, FBaseDepositTotal | FMarketQuoteVault, FMarketQuoteVault
    | FQuoteDepositTotal, FQuoteDepositTotal | FReserved, FReserved => true | _, _ => false end) market_layout
  with Some x => snd x | None => 0%nat end.
Definition some_market (f : market_field) : list Z :=
  repeat (match f with FBaseMint => 61 | FQuoteMint => 62 | _ => 3 end) (field_size f).
Example C75_mints_case : sized (repeat 9 8) some_market /\ length (market_bytes (repeat 9 8) some_market) = 848%nat /\
  ts_by_mints (repeat 61 32) (repeat 62 32) (market_bytes (repeat 9 8) some_market) = false /\
  memcmp 576 (repeat 61 32) (market_bytes (repeat 9 8) some_market) = true /\
  memcmp 608 (repeat 62 32) (market_bytes (repeat 9 8) some_market) = true /\
  memcmp 608 (repeat 61 32) (market_bytes (repeat 9 8) some_market) = false.
Proof.
  split; [split; [reflexivity|]|vm_compute; auto 6]. intros f n H. unfold some_market. rewrite repeat_length.
  unfold market_layout in H. repeat (destruct H as [H|H]; [injection H as <- <-; reflexivity|]). destruct H.
Qed.

(** C76: cancelling all orders through the client takes all of the account's orders (of the
    chosen side) off the book and pays out what is free.  Missing: clients acting as delegate,
    see [C76_delegate_refuted]. *)
Theorem C76_cancel_all_partial c e s k a so ub uq ref s' : reachable s -> s_closed s = false ->
  acct_get k (w_accts (s_w s)) = Some a -> p_bids_base (a_pos a) + p_asks_base (a_pos a) < 2 ^ 63 ->
  ts_send c e s (ts_cancel_all_orders c k a so ub uq ref) = Ok s' ->
  (forall sd t l, In (t, l) (orders (s_w s') sd) -> lf_owner l = k -> exists sd', so = Some sd' /\ sd <> sd') /\
  exists a', acct_get k (w_accts (s_w s')) = Some a' /\ p_base_free (a_pos a') = 0 /\ p_quote_free (a_pos a') = 0.
Proof. exact (cancels_and_settles c e s k a so ub uq ref s'). Qed.
Print Assumptions C76_cancel_all_partial.
Definition sent (c : ts_client) (s : sys) (k : Z) (so : option side) (ub uq : Z) : option (list Z * list (option Z)) :=
  match acct_get k (w_accts (s_w s)) with
  | Some a => match ts_send c (at_time 107 None) s (ts_cancel_all_orders c k a so ub uq None) with
              | Ok s' => Some (map (fun x => lf_owner (snd x)) (orders (s_w s') Bid ++ orders (s_w s') Ask), amounts_of s' [ub; uq])
              | Err _ => None end
  | None => None
  end.
Example C76_case : reachable shop /\ s_closed shop = false /\
  map (fun x => lf_owner (snd x)) (orders (s_w shop) Bid ++ orders (s_w shop) Ask) = [101; 101; 102; 102; 101] /\
  sent (mkTsClient 1 None) shop 101 None 11 12 = Some ([102; 102], [Some 1000000000; Some 1000000000]) /\
  sent (mkTsClient 1 None) shop 101 (Some Bid) 11 12 = Some ([101; 102; 102; 101], [Some 999997300; Some 1000000000]).
Proof. split; [exact shop_reachable|]. vm_compute. auto. Qed.

(** C76: without the owner's signature nothing can be cancelled through the client. *)
Theorem C76_owner_must_sign c e s k a : mem_key (a_owner a) (ts_signatures c) = false ->
  (forall id, ts_send c e s [ts_cancel k a id] = Err Constraint) /\
  (forall cid, ts_send c e s [ts_cancel_client k a cid] = Err Constraint) /\
  (forall so ub uq ref, ts_send c e s (ts_cancel_all_orders c k a so ub uq ref) = Err Constraint).
Proof. exact (owner_must_sign c e s k a). Qed.
Print Assumptions C76_owner_must_sign.

(** User 2 is the delegate of user 1's account. *)
Definition shop_delegated : sys :=
  the_sys (run (sample_market 10 100 200 400) (shop_calls ++ [(at_time 105 None, ISetDelegate 1 101 2)])).
Lemma shop_delegated_reachable : reachable shop_delegated.
Proof. unfold shop_delegated, sample_market. apply sample_reachable. vm_compute. reflexivity. Qed.
(** C76 refuted for delegates: the program lets the delegate cancel, the client does not. *)
Theorem C76_delegate_refuted : exists s k a d id, reachable s /\ acct_get k (w_accts (s_w s)) = Some a /\ a_delegate a = d /\
  succeeds (at_time 107 None) s (ICancel d k id) = true /\
  is_ok (ts_send (mkTsClient d (Some d)) (at_time 107 None) s [ts_cancel k a id]) = false /\
  is_ok (ts_send (mkTsClient d (Some d)) (at_time 107 None) s [ts_settle (mkTsClient d (Some d)) k a 11 12 None]) = true.
Proof.
  exists shop_delegated, 101. destruct (acct_get 101 (w_accts (s_w shop_delegated))) as [a|] eqn:E; [|vm_compute in E; discriminate E].
  exists a, 2, (new_node_key Bid 95 4). split; [exact shop_delegated_reachable|]. split; [reflexivity|].
  vm_compute in E. injection E as <-. vm_compute. auto.
Qed.
Print Assumptions C76_delegate_refuted.

(** C76: with an order that may take, the client passes the accounts of up to three different
    owners of orders on the other side, the best one's among them, and all of them if there
    are fewer. *)
Theorem C76_accounts_passed s clock t sd L : reachable s ->
  ts_remaining (w_book (s_w s) Bid) (w_book (s_w s) Ask) clock t sd = Ok L ->
  let other := invert_side sd in
  NoDup L /\ (length L <= 3)%nat /\
  (forall k, In k L -> exists t l, In (t, l) (orders (s_w s) other) /\ lf_owner l = k) /\
  (t <> POPostOnly -> t <> POPostOnlySlide ->
    (forall x l, orders (s_w s) other = x :: l -> In (lf_owner (snd x)) L) /\
    ((length L < 3)%nat -> forall t l, In (t, l) (orders (s_w s) other) -> In (lf_owner l) L)).
Proof. exact (passed_along s clock t sd L). Qed.
Print Assumptions C76_accounts_passed.
Example C76_accounts_case : reachable shop /\
  ts_remaining (w_book (s_w shop) Bid) (w_book (s_w shop) Ask) 0 POLimit Bid = Ok [101; 102] /\
  ts_remaining (w_book (s_w shop) Bid) (w_book (s_w shop) Ask) 0 POPostOnly Bid = Ok [].
Proof. split; [exact shop_reachable|]. vm_compute. auto. Qed.

(** C76 refuted for orders that meet one's own: the accounts passed along contain the user's
    own account, and the order fails that would work without them. *)
Theorem C76_own_account_refuted : exists s u g L, reachable s /\
  ts_remaining (w_book (s_w s) Bid) (w_book (s_w s) Ask) 107 (pa_type g) (pa_side g) = Ok L /\ In (100 + u) L /\
  err_of (exec (at_time 107 None) s (IPlaceOrder (place_by u (pa_side g) L) g)) = Some BorrowFailed /\
  succeeds (at_time 107 None) s (IPlaceOrder (place_by u (pa_side g) []) g) = true.
Proof.
  exists shop, 1, (mkPlaceArgs Bid 105 22 1000000 9 POLimit 0 DecrementTake 10), [101; 102].
  split; [exact shop_reachable|]. vm_compute. auto 6.
Qed.
Print Assumptions C76_own_account_refuted.
