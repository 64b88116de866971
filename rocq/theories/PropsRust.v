(** C78-C81: the Rust client's sizes, instructions, accounts and fetching, and how both clients
    create an account; C76 for the owner. *)
From Coq Require Import ZArith List Bool Lia.
From Verif Require Import Base Nodes OrderTree BookSide Heap Market OpenOrders Order Book Instructions
  SpecBook SpecFees SpecOrder SpecLedger SpecEvents SpecSystem SpecControl SpecLive LiveIx AuthFacts SystemProofs Samples Program SpecProgram ProgSamples Ts TsSend
  RClient SpecRust RClientFacts PropsTs.
From Verif Require ChainData SpecChain PropsChain ChainEnds.
Import ListNotations.
Open Scope Z_scope.

(** ** C76: what the owner can do through the TypeScript client *)
(** The owner, without a delegate key, can cancel on either or both sides and be paid out in one
    transaction, whatever else has happened on the market. *)
Theorem C76_owner_can e s k a so ub uq : reachable s -> s_closed s = false -> acct_get k (w_accts (s_w s)) = Some a ->
  p_bids_base (a_pos a) + p_asks_base (a_pos a) < 2 ^ 63 -> p_penalty (a_pos a) * 500 <= 18446744073709551615 ->
  let c := m_cfg (w_mkt (s_w s)) in
  has_room (s_tok s) ub (c_base_mint c) (a_owner a) (c_base_vault c) ->
  has_room (s_tok s) uq (c_quote_mint c) (a_owner a) (c_quote_vault c) ->
  exists s', ts_send (mkTsClient (a_owner a) None) e s (ts_cancel_all_orders (mkTsClient (a_owner a) None) k a so ub uq None) = Ok s'.
Proof. exact (ts_cancel_all_works e s k a so ub uq). Qed.
Print Assumptions C76_owner_can.
Definition room_b (t : tokens) (k mint user vault : Z) : bool :=
  match t k, t vault with
  | Some x, Some v => (t_mint x =? mint) && (t_owner x =? user) && (t_amount x + t_amount v <=? 18446744073709551615)
  | _, _ => false
  end.
Lemma room_b_ok t k mint user vault : room_b t k mint user vault = true -> has_room t k mint user vault.
Proof.
  unfold room_b, has_room. destruct (t k) as [x|]; [|discriminate]. destruct (t vault) as [v|]; [|discriminate]. intros H.
  apply andb_prop in H as [H H3]. apply andb_prop in H as [H1 H2]. exists x, v. repeat split; lia.
Qed.
Definition shop_acct : ooa := match acct_get 101 (w_accts (s_w shop)) with Some a => a | None => mkOoa 0 0 0 0 position0 [] end.
Lemma shop_acct_at : acct_get 101 (w_accts (s_w shop)) = Some shop_acct.
Proof. unfold shop_acct. destruct (acct_get 101 (w_accts (s_w shop))) as [a|] eqn:E; [reflexivity|]. vm_compute in E. discriminate E. Qed.
Example C76_owner_case : reachable shop /\ s_closed shop = false /\ acct_get 101 (w_accts (s_w shop)) = Some shop_acct /\
  p_bids_base (a_pos shop_acct) + p_asks_base (a_pos shop_acct) < 2 ^ 63 /\ p_penalty (a_pos shop_acct) * 500 <= 18446744073709551615 /\
  has_room (s_tok shop) 11 61 (a_owner shop_acct) 51 /\ has_room (s_tok shop) 12 62 (a_owner shop_acct) 52.
Proof.
  split; [exact shop_reachable|]. split; [reflexivity|]. split; [exact shop_acct_at|]. split; [vm_compute; reflexivity|]. split; [vm_compute; discriminate|].
  split; apply room_b_ok; vm_compute; reflexivity.
Qed.

(** ** C78: sizes *)
(** Where the fee computed for the budget is less than one unit, the size is the largest that
    never costs more than the budget.  Missing: larger fees, where it always costs more (next
    theorem). *)
Theorem C78_sizes_partial s q : reachable s -> 0 <= q -> let m := w_mkt (s_w s) in
  (forall r, rc_quote_lots_taker m q = Ok r -> q * c_taker_fee (m_cfg m) < 1000000 + c_taker_fee (m_cfg m) -> largest_within (c_qls (m_cfg m)) q r) /\
  (forall r, rc_quote_lots_maker m q = Ok r -> q * c_maker_fee (m_cfg m) < 1000000 -> largest_within (c_qls (m_cfg m)) q r).
Proof. exact (no_fee_within s q). Qed.
Print Assumptions C78_sizes_partial.
(** The market of the examples has lots of 10 quote units, maker fee 0.02%, taker fee 0.04%; asks
    for 20000 lots at price 1. *)
Definition cheap : sys := the_sys (run (sample_market 10 100 200 400)
  (open_accounts 10 ++ [(at_time 100 None, limit_order 2 Ask 1 20000 1)])).
Lemma cheap_reachable : reachable cheap.
Proof. unfold cheap, sample_market. apply sample_reachable. vm_compute. reflexivity. Qed.
Example C78_sizes_case : reachable cheap /\ rc_quote_lots_taker (w_mkt (s_w cheap)) 2345 = Ok 234 /\ 2345 * 400 < 1000000 + 400 /\
  rc_quote_lots_maker (w_mkt (s_w cheap)) 2345 = Ok 234 /\ 2345 * 200 < 1000000 /\ largest_within 10 2345 234.
Proof. split; [exact cheap_reachable|]. unfold largest_within. vm_compute. repeat split; try reflexivity; discriminate. Qed.

(** On every market with a fee, for every budget of which the fee makes up a unit, the size that
    is to include the fee is worth more than the budget even before any fee: fee units are added
    to lots. *)
Theorem C78_over_budget s q : reachable s -> 0 <= q -> let m := w_mkt (s_w s) in
  (forall r, rc_quote_lots_taker m q = Ok r -> 1000000 + c_taker_fee (m_cfg m) <= q * c_taker_fee (m_cfg m) -> q < r * c_qls (m_cfg m)) /\
  (forall r, rc_quote_lots_maker m q = Ok r -> 1000000 <= q * c_maker_fee (m_cfg m) -> q < r * c_qls (m_cfg m)).
Proof. exact (fee_beyond s q). Qed.
Print Assumptions C78_over_budget.
Example C78_over_budget_case : reachable cheap /\ rc_quote_lots_taker (w_mkt (s_w cheap)) 100000 = Ok 10039 /\ 1000000 + 400 <= 100000 * 400 /\
  rc_quote_lots_maker (w_mkt (s_w cheap)) 100000 = Ok 10020 /\ 1000000 <= 100000 * 200.
Proof. split; [exact cheap_reachable|]. vm_compute. repeat split; try reflexivity; discriminate. Qed.

(** Refuted: an order with the size computed for a budget pays more than the budget. *)
Theorem C78_budget_refuted : exists e s c budget lots s' out x x', reachable s /\ rc_quote_lots_taker (w_mkt (s_w s)) budget = Ok lots /\
  exec e s (rc_place c 12 52 (mkPlaceArgs Bid 1 1000000 lots 9 POImmediateOrCancel 0 DecrementTake 10)) = Ok (s', out) /\
  s_tok s 12 = Some x /\ s_tok s' 12 = Some x' /\ t_amount x - t_amount x' > budget /\ largest_within (c_qls (m_cfg (w_mkt (s_w s)))) budget (budget / 10).
Proof.
  set (i := rc_place (mkRc 1 101) 12 52 (mkPlaceArgs Bid 1 1000000 10039 9 POImmediateOrCancel 0 DecrementTake 10)).
  assert (H : match exec (at_time 107 None) cheap i with
              | Ok (s', _) => match s_tok cheap 12, s_tok s' 12 with Some x, Some x' => 100000 <? t_amount x - t_amount x' | _, _ => false end
              | Err _ => false end = true) by (vm_compute; reflexivity).
  destruct (exec (at_time 107 None) cheap i) as [[s' out]|] eqn:E; [|discriminate H].
  destruct (s_tok cheap 12) as [x|] eqn:Ex; [|discriminate H]. destruct (s_tok s' 12) as [x'|] eqn:Ex'; [|discriminate H].
  exists (at_time 107 None), cheap, (mkRc 1 101), 100000, 10039, s', out, x, x'. split; [exact cheap_reachable|]. split; [vm_compute; reflexivity|].
  split; [exact E|]. split; [exact Ex|]. split; [exact Ex'|]. split; [lia|]. unfold largest_within. vm_compute. split; [discriminate|reflexivity].
Qed.
Print Assumptions C78_budget_refuted.

(** Base sizes in native units are right. *)
Theorem C78_base_lots s b : reachable s -> let m := w_mkt (s_w s) in largest_within (c_bls (m_cfg m)) b (rc_base_lots m b).
Proof. exact (base_within s b). Qed.
Print Assumptions C78_base_lots.
Example C78_base_case : reachable cheap /\ rc_base_lots (w_mkt (s_w cheap)) 12345 = 123 /\ c_bls (m_cfg (w_mkt (s_w cheap))) = 100.
Proof. split; [exact cheap_reachable|]. vm_compute. auto. Qed.

(** Base sizes in whole tokens are always too small, for every token with decimals: the size is
    multiplied by the number of decimals and not by a power of ten. *)
Theorem C78_base_short s d size r : reachable s -> 0 < size -> 1 <= d -> let m := w_mkt (s_w s) in
  rc_base_lots_usd m d size = Ok r -> r * c_bls (m_cfg m) <= size * d /\ size * d < size * 10 ^ d.
Proof.
  intros Hr Hs Hd m H. split; [exact (base_short_le s d size r Hr H)|].
  apply Z.mul_lt_mono_pos_l; [exact Hs|]. apply (Z.pow_gt_lin_r 10 d); lia.
Qed.
Print Assumptions C78_base_short.
Example C78_base_short_case : reachable cheap /\ rc_base_lots_usd (w_mkt (s_w cheap)) 9 50 = Ok 4 /\
  50 * 10 ^ 9 / c_bls (m_cfg (w_mkt (s_w cheap))) = 500000000.
Proof. split; [exact cheap_reachable|]. vm_compute. auto. Qed.

(** Budgets in whole dollars, taken as millions of quote units: on a market without fees the size
    is the largest within the budget; with a taker fee of at least 2 millionths, or any maker fee,
    it is worth more than the budget, whatever the budget. *)
Theorem C78_dollars s n : reachable s -> 1 <= n -> let m := w_mkt (s_w s) in
  (forall r, rc_quote_lots_taker_usd m n = Ok r ->
     (c_taker_fee (m_cfg m) = 0 -> largest_within (c_qls (m_cfg m)) (n * 1000000) r) /\
     (2 <= c_taker_fee (m_cfg m) -> n * 1000000 < r * c_qls (m_cfg m))) /\
  (forall r, rc_quote_lots_maker_usd m n = Ok r ->
     (c_maker_fee (m_cfg m) <= 0 -> largest_within (c_qls (m_cfg m)) (n * 1000000) r) /\
     (1 <= c_maker_fee (m_cfg m) -> n * 1000000 < r * c_qls (m_cfg m))).
Proof. exact (dollars s n). Qed.
Print Assumptions C78_dollars.
Definition free_market : sys := the_sys (run (sample_market 10 100 0 0) []).
Lemma free_reachable : reachable free_market.
Proof. unfold free_market, sample_market. apply sample_reachable. vm_compute. reflexivity. Qed.
Example C78_dollars_case : reachable cheap /\ rc_quote_lots_taker_usd (w_mkt (s_w cheap)) 5 = Ok 501999 /\ rc_quote_lots_maker_usd (w_mkt (s_w cheap)) 5 = Ok 501000 /\
  c_taker_fee (m_cfg (w_mkt (s_w cheap))) = 400 /\ c_maker_fee (m_cfg (w_mkt (s_w cheap))) = 200 /\
  reachable free_market /\ c_taker_fee (m_cfg (w_mkt (s_w free_market))) = 0 /\ rc_quote_lots_taker_usd (w_mkt (s_w free_market)) 5 = Ok 500000.
Proof. split; [exact cheap_reachable|]. do 4 (split; [vm_compute; reflexivity|]). split; [exact free_reachable|]. vm_compute. auto. Qed.

(** ** C79: acting through the Rust client *)
(** The owner of an account can cancel all orders and be paid out: both instructions succeed, no
    order of the account is left and nothing is left to be paid out.  Missing: other callers and
    instructions; see the theorems below. *)
Theorem C79_cancel_and_settle_partial e s c a ub uq : reachable s -> s_closed s = false ->
  acct_get (rc_account c) (w_accts (s_w s)) = Some a -> rc_owner c = a_owner a ->
  p_bids_base (a_pos a) + p_asks_base (a_pos a) < 2 ^ 63 -> p_penalty (a_pos a) * 500 <= 18446744073709551615 ->
  let g := m_cfg (w_mkt (s_w s)) in
  has_room (s_tok s) ub (c_base_mint g) (a_owner a) (c_base_vault g) ->
  has_room (s_tok s) uq (c_quote_mint g) (a_owner a) (c_quote_vault g) ->
  exists s1 s2 a2, exec e s (rc_cancel_all c None 24) = Ok (s1, ONone) /\ exec e s1 (rc_settle c ub uq None) = Ok (s2, ONone) /\
    (forall sd t l, In (t, l) (orders (s_w s2) sd) -> lf_owner l <> rc_account c) /\
    acct_get (rc_account c) (w_accts (s_w s2)) = Some a2 /\ p_base_free (a_pos a2) = 0 /\ p_quote_free (a_pos a2) = 0.
Proof. exact (rc_works e s c a ub uq). Qed.
Print Assumptions C79_cancel_and_settle_partial.
Example C79_case : reachable shop /\ s_closed shop = false /\ acct_get 101 (w_accts (s_w shop)) = Some shop_acct /\ a_owner shop_acct = 1 /\
  has_room (s_tok shop) 11 61 1 51 /\ has_room (s_tok shop) 12 62 1 52 /\
  amounts_of (after (at_time 107 None) (after (at_time 107 None) shop (rc_cancel_all (mkRc 1 101) None 24)) (rc_settle (mkRc 1 101) 11 12 None)) [11; 12]
    = [Some 1000000000; Some 1000000000] /\ amounts_of shop [11; 12] = [Some 999997300; Some 999961992].
Proof.
  split; [exact shop_reachable|]. split; [reflexivity|]. split; [exact shop_acct_at|]. split; [reflexivity|].
  split; [apply room_b_ok; vm_compute; reflexivity|]. split; [apply room_b_ok; vm_compute; reflexivity|]. vm_compute. auto.
Qed.

(** An order that its sender can pay for goes through (the conditions are those of C56), an order
    of the client's account is cancelled by its id, and a deposit brings exactly its amounts. *)
Theorem C79_places e s c ut v g oracle a : reachable s -> trading e s oracle -> fair_place g ->
  spacious (s_w s) (pa_max_base g) (pa_max_quote g) (pa_limit g) -> (may_rest (pa_type g) = true -> side_room (s_w s) (pa_side g)) ->
  may_place s (mkPlaceCtx (rc_owner c) (rc_account c) 0 ut v []) (pa_side g) (pa_max_base g) (pa_max_quote g) a ->
  pa_self_trade g <> AbortTransaction -> pa_type g <> POPostOnlySlide -> pa_type g <> POFillOrKill ->
  exists s' out, exec e s (rc_place c ut v g) = Ok (s', out).
Proof. exact (rc_places e s c ut v g oracle a). Qed.
Print Assumptions C79_places.
Theorem C79_cancels e s c sd t l a : reachable s -> s_closed s = false -> In (t, l) (orders (s_w s) sd) -> lf_owner l = rc_account c ->
  acct_get (rc_account c) (w_accts (s_w s)) = Some a -> rc_owner c = a_owner a -> m_seq (w_mkt (s_w s)) < 2 ^ 63 ->
  exists s', exec e s (rc_cancel c (lf_key l)) = Ok (s', ONone) /\ taken_off (s_w s) sd t l (s_w s') /\ s_tok s' = s_tok s.
Proof. exact (rc_cancels e s c sd t l a). Qed.
Print Assumptions C79_cancels.
Theorem C79_deposits e s c ub uq b q s' out a : exec e s (rc_deposit c ub uq b q) = Ok (s', out) ->
  acct_get (rc_account c) (w_accts (s_w s)) = Some a -> deposited s (rc_account c) ub uq b q a s'.
Proof. intros H Ha. exact (proj2 (exec_deposit e s _ _ _ _ _ _ _ _ _ H Ha)). Qed.
Print Assumptions C79_deposits.
Definition plain_bid : place_args := mkPlaceArgs Bid 95 40 100000 4 POLimit 0 DecrementTake 10.
Example C79_places_case : trading (at_time 107 None) shop None /\ fair_place plain_bid /\ spacious (s_w shop) 40 100000 10 /\ side_room (s_w shop) Bid /\
  (exists a, may_place shop (mkPlaceCtx 1 101 0 12 52 []) Bid 40 100000 a) /\
  succeeds (at_time 107 None) shop (rc_place (mkRc 1 101) 12 52 plain_bid) = true /\
  (exists t l, In (t, l) (orders (s_w shop) Ask) /\ lf_owner l = 101) /\
  succeeds (at_time 107 None) shop (rc_deposit (mkRc 1 101) 11 12 500 7) = true.
Proof.
  split; [apply trading_b_ok; vm_compute; reflexivity|]. split; [constructor; vm_compute; repeat split; discriminate|].
  split; [apply spacious_b_ok; vm_compute; reflexivity|]. split; [apply Nat.ltb_lt; vm_compute; reflexivity|].
  split; [apply (may_place_check_ok _ _ _ _ _ 5); vm_compute; reflexivity|]. split; [vm_compute; reflexivity|].
  split; [|vm_compute; reflexivity].
  destruct (orders (s_w shop) Ask) as [|[t l] r] eqn:E; [vm_compute in E; discriminate E|]. exists t, l. split; [left; reflexivity|].
  vm_compute in E. injection E as _ <- _. reflexivity.
Qed.

(** On a market with an open orders admin no order can be placed through the client, by anybody. *)
Theorem C79_admin_blocks s c e ut v : c_open_orders_admin (m_cfg (w_mkt (s_w s))) <> 0 ->
  (forall g r, exec e s (rc_place c ut v g) <> Ok r) /\ (forall g r, exec e s (rc_place_pegged c ut v g) <> Ok r).
Proof. exact (admin_blocks s c e ut v). Qed.
Print Assumptions C79_admin_blocks.
Definition guarded : sys := the_sys (run (create_market_ix 5 start_tokens (mkCfg 10 100 200 400 40 50 70 80 0 71 77 0 61 62 51 52) 0) (open_accounts 10)).
Lemma guarded_reachable : reachable guarded.
Proof. unfold guarded. apply sample_reachable. vm_compute. reflexivity. Qed.
(** With the admin's signature the same order is placed. *)
Definition some_order : place_args := mkPlaceArgs Bid 95 40 1000000 4 POLimit 0 DecrementTake 10.
Example C79_admin_case : reachable guarded /\ c_open_orders_admin (m_cfg (w_mkt (s_w guarded))) <> 0 /\
  succeeds (at_time 100 None) guarded (IPlaceOrder (mkPlaceCtx 1 101 80 12 52 []) some_order) = true /\
  err_of (exec (at_time 100 None) guarded (rc_place (mkRc 1 101) 12 52 some_order)) = Some InvalidOpenOrdersAdmin.
Proof. split; [exact guarded_reachable|]. split; [vm_compute; discriminate|]. vm_compute. auto. Qed.

(** Consuming events through the client never consumes an event. *)
Theorem C79_consumes_nothing e s limit s' out : reachable s -> exec e s (rc_consume (w_mkt (s_w s)) limit) = Ok (s', out) -> s' = s.
Proof. exact (consumes_nothing e s limit s' out). Qed.
Print Assumptions C79_consumes_nothing.
Example C79_consume_case : reachable shop_sold /\ waiting (s_w shop_sold) <> [] /\
  succeeds (at_time 107 None) shop_sold (rc_consume (w_mkt (s_w shop_sold)) 8) = true /\
  length (waiting (s_w (after (at_time 107 None) shop_sold (rc_consume (w_mkt (s_w shop_sold)) 8)))) = length (waiting (s_w shop_sold)).
Proof. split; [exact shop_sold_reachable|]. split; [vm_compute; discriminate|]. vm_compute. auto. Qed.

(** ** C80: finding or creating an account *)
(** An account with the name looked for is found; nothing changes. *)
Theorem C80_finds addr e p named m o nl k0 : preachable addr p -> owns p o k0 -> named k0 = true ->
  exists k, rc_find_or_create addr e p named m o nl = Ok (p, k) /\ owns p o k /\ named k = true.
Proof. exact (rc_found addr e p named m o nl k0). Qed.
Print Assumptions C80_finds.

(** Without an account of that name, the Rust client succeeds exactly if the program would create
    the next account and the account the program counted last is still open.  Missing: owners
    without accounts, and owners whose newest account is closed, for whom it always fails. *)
Theorem C80_creates_partial addr e p named m o nl : addresses_differ addr -> preachable addr p -> is_authority p o = false ->
  (forall k, owns p o k -> named k = false) ->
  (exists p' k, rc_find_or_create addr e p named m o nl = Ok (p', k)) <->
  (exists x s, al_get o (p_idx p) = Some x /\ (length (ix_addrs x) < 256)%nat /\ ix_counter x < 4294967295 /\
     market_in p m = Some s /\ s_closed s = false /\ nl <= 32 /\
     exists m' k a, account_in p m' k a /\ a_owner a = o /\ a_num a = ix_counter x).
Proof. exact (rc_creates addr e p named m o nl). Qed.
Print Assumptions C80_creates_partial.

(** The account is then new, empty and its owner's, and no other account has changed. *)
Theorem C80_created addr e p named m o nl p' k : addresses_differ addr -> preachable addr p -> (forall k, owns p o k -> named k = false) ->
  rc_find_or_create addr e p named m o nl = Ok (p', k) -> opened addr p p' m k o 0.
Proof. exact (rc_created addr e p named m o nl p' k). Qed.
Print Assumptions C80_created.
Definition found (p : prog) (named : Z -> bool) (m o nl : Z) : option Z :=
  match rc_find_or_create addr58 later p named m o nl with Ok (_, k) => Some k | Err _ => None end.
Lemma owned_few p o (named : Z -> bool) : preachable addr58 p -> existsb (fun ka => named (fst ka)) (accounts_of p o) = false ->
  forall k, owns p o k -> named k = false.
Proof.
  intros Hr H k (m & a & Ha & Ho). destruct (named k) eqn:E; [|reflexivity]. exfalso.
  assert (G : existsb (fun ka => named (fst ka)) (accounts_of p o) = true); [|congruence].
  apply existsb_exists. exists (k, a). split; [apply (accounts_of_in addr58 p o Hr); exists m; auto|exact E].
Qed.
(** User 1 has accounts 1 and 2, user 2 has 1 and 3 of three. *)
Example C80_case : addresses_differ addr58 /\ preachable addr58 two_markets /\ is_authority two_markets 1 = false /\
  (forall k, owns two_markets 1 k -> (k =? 5) = false) /\
  found two_markets (fun k => k =? 5) 40 1 3 = Some (addr58 1 3) /\
  found two_markets (fun k => k =? 5) 41 2 3 = Some (addr58 2 4) /\
  found two_markets (fun k => k =? addr58 2 3) 41 2 3 = Some (addr58 2 3).
Proof.
  split; [exact addr58_differ|]. split; [exact two_markets_reachable|]. split; [vm_compute; reflexivity|].
  split; [apply owned_few; [exact two_markets_reachable|vm_compute; reflexivity]|]. vm_compute. auto.
Qed.

(** It never creates an owner's first account. *)
Theorem C80_first_fails addr e p named m o nl : addresses_differ addr -> preachable addr p -> is_authority p o = false ->
  (forall k, ~ owns p o k) -> forall r, rc_find_or_create addr e p named m o nl <> Ok r.
Proof.
  intros Hd Hr Ha Hn [p' k] H.
  destruct (proj1 (rc_creates addr e p named m o nl Hd Hr Ha (fun k0 H0 => False_ind _ (Hn k0 H0))) (ex_intro _ p' (ex_intro _ k H))) as (x & s & _ & _ & _ & _ & _ & _ & m' & k' & a & A1 & A2 & _).
  exact (Hn k' (ex_intro _ m' (ex_intro _ a (conj A1 A2)))).
Qed.
Print Assumptions C80_first_fails.
(** User 3 with an indexer but no account: the program would create account 1. *)
Definition newcomer : prog := the_prog (prun (Ok (prog0 start_tokens)) (two_markets_start ++ [(later, PCreateIndexer 3)])).
Lemma newcomer_reachable : preachable addr58 newcomer.
Proof. apply (runs_preachable (prog0 start_tokens)); [|constructor]. apply prun_ok. vm_compute. reflexivity. Qed.
Lemma owns_none p o : preachable addr58 p -> accounts_of p o = [] -> forall k, ~ owns p o k.
Proof.
  intros Hr E k (m & a & Ha & Ho). assert (I : In (k, a) (accounts_of p o)) by (apply (accounts_of_in addr58 p o Hr); exists m; auto).
  rewrite E in I. exact I.
Qed.
Example C80_first_case : addresses_differ addr58 /\ preachable addr58 newcomer /\ is_authority newcomer 3 = false /\ (forall k, ~ owns newcomer 3 k) /\
  pok later newcomer (PCreateAccount 40 3 0 3) = true.
Proof.
  split; [exact addr58_differ|]. split; [exact newcomer_reachable|]. split; [vm_compute; reflexivity|].
  split; [apply owns_none; [exact newcomer_reachable|vm_compute; reflexivity]|vm_compute; reflexivity].
Qed.

(** Refuted as well for owners who have accounts but have closed the newest. *)
Definition closed_newest : prog := the_prog (prun (Ok (prog0 start_tokens))
  [(later, PCreateMarket 40 market40 0); (later, PCreateIndexer 1); (later, PCreateAccount 40 1 0 3); (later, PCreateAccount 40 1 0 3);
   (later, PCloseAccount 40 1 (addr58 1 2))]).
Theorem C80_closed_newest_refuted : exists p m o k, addresses_differ addr58 /\ preachable addr58 p /\ is_authority p o = false /\ owns p o k /\
  pok later p (PCreateAccount m o 0 3) = true /\ forall r, rc_find_or_create addr58 later p (fun _ => false) m o 3 <> Ok r.
Proof.
  assert (R : preachable addr58 closed_newest) by (apply (runs_preachable (prog0 start_tokens)); [|constructor]; apply prun_ok; vm_compute; reflexivity).
  exists closed_newest, 40, 1, (addr58 1 1). split; [exact addr58_differ|]. split; [exact R|]. split; [vm_compute; reflexivity|].
  split; [exists 40, (reuse_acct 40); split; [apply account_at_in; vm_compute; reflexivity|reflexivity]|]. split; [vm_compute; reflexivity|].
  assert (H : found closed_newest (fun _ => false) 40 1 3 = None) by (vm_compute; reflexivity).
  intros r E. unfold found in H. rewrite E in H. destruct r. discriminate H.
Qed.
Print Assumptions C80_closed_newest_refuted.

(** The TypeScript client creates an account whenever the program can, the indexer first if there
    is none: exactly if the market is open, the name not too long and the indexer, if there is
    one, neither full nor at the end of its numbers. *)
Theorem C80_ts_creates addr e p m o d nl : addresses_differ addr -> preachable addr p -> is_authority p o = false ->
  (exists p' k, ts_create addr e p m o d nl = Ok (p', k)) <->
  (exists s, market_in p m = Some s /\ s_closed s = false /\ nl <= 32 /\
     forall x, al_get o (p_idx p) = Some x -> (length (ix_addrs x) < 256)%nat /\ ix_counter x < 4294967295).
Proof. exact (ts_creates addr e p m o d nl). Qed.
Print Assumptions C80_ts_creates.
Theorem C80_ts_created addr e p m o d nl p' k : addresses_differ addr -> preachable addr p -> ts_create addr e p m o d nl = Ok (p', k) ->
  opened addr p p' m k o d.
Proof. exact (ts_created addr e p m o d nl p' k). Qed.
Print Assumptions C80_ts_created.
Definition ts_found (p : prog) (m o d nl : Z) : option Z := match ts_create addr58 later p m o d nl with Ok (_, k) => Some k | Err _ => None end.
Example C80_ts_case : addresses_differ addr58 /\ preachable addr58 two_markets /\
  map (fun o => is_authority two_markets o) [1; 2; 3] = [false; false; false] /\
  map (fun o => ts_found two_markets 40 o 9 3) [1; 2; 3] = [Some (addr58 1 3); Some (addr58 2 4); Some (addr58 3 1)].
Proof. split; [exact addr58_differ|]. split; [exact two_markets_reachable|]. vm_compute. auto. Qed.

(** ** C81: fetching through the account cache *)
Import ChainData SpecChain PropsChain ChainEnds.
(** After a refresh that succeeded, one of the node's answers was recent enough, and if it counts
    (its slot is on the best chain), then the cache answers with data at least as recent as was
    asked for, and with the newest there is.  Missing: answers for slots off the best chain, for
    which it is wrong (below). *)
Theorem C81_refreshed_partial h c k min ws c' : fed h c -> refresh_until c k min ws = Ok (Some c') ->
  let h' := h ++ heard c k min ws in
  fed h' c' /\ exists w, In w ws /\ min <= wr_slot w /\
  (orderly h' -> counts h' (wr_slot w) ->
   exists v, account_and_slot c' k = Some v /\ min <= wr_slot v /\ newest (fun x => counts h' (wr_slot x)) (writes_of k h') v).
Proof. exact (refreshed h c k min ws c'). Qed.
Print Assumptions C81_refreshed_partial.

(** A fresh fetch returns what the cache holds afterwards.  If the node's slot counts, that is at
    least as recent as the node's answer; and a slot above the head always counts. *)
Theorem C81_fresh_partial h c k w c' r : fed h c -> fetch_fresh c k w = Ok (c', r) ->
  let h' := h ++ rpc_stub c w ++ [NWrite k w] in orderly h' ->
  fed h' c' /\ r = account_and_slot c' k /\
  (counts h' (wr_slot w) -> exists v, r = Some v /\ wr_slot w <= wr_slot v /\ newest (fun x => counts h' (wr_slot x)) (writes_of k h') v) /\
  (head_in h < wr_slot w -> counts h' (wr_slot w)).
Proof. exact (fetched h c k w c' r). Qed.
Print Assumptions C81_fresh_partial.
Definition told : list news := fst (played stream).
Definition cache : chain_data := snd (played stream).
Lemma cache_fed : fed told cache.
Proof. apply played_fed. vm_compute. reflexivity. Qed.
Definition fetched_slot (k : Z) (w : write) : option (option write) := match fetch_fresh cache k w with Ok (_, r) => Some r | Err _ => None end.
Example C81_case : fed told cache /\ orderly (told ++ rpc_stub cache (mkWrite 8 500) ++ [NWrite 7 (mkWrite 8 500)]) /\
  head_in told = 6 /\ fetched_slot 7 (mkWrite 8 500) = Some (Some (mkWrite 8 500)) /\ fetched_slot 7 (mkWrite 6 500) = Some (Some (mkWrite 6 500)) /\
  match refresh_until cache 7 8 [mkWrite 6 400; mkWrite 9 500] with Ok (Some c') => account_and_slot c' 7 = Some (mkWrite 9 500) | _ => False end.
Proof.
  split; [exact cache_fed|]. split; [|vm_compute; auto].
  apply orderly_b_ok; [apply played_orderly; vm_compute; reflexivity|vm_compute; reflexivity].
Qed.

(** Refuted in general: the node answers for a slot that is not on the best chain known to the
    cache; the refresh succeeds, and the cache answers with data older than was asked for. *)
Theorem C81_older_refuted : exists h c k min w c' v, fed h c /\ orderly (h ++ heard c k min [w]) /\
  refresh_until c k min [w] = Ok (Some c') /\ account_and_slot c' k = Some v /\ wr_slot v < min.
Proof.
  destruct (refresh_until cache 7 5 [mkWrite 5 999]) as [[c'|]|] eqn:E; [|vm_compute in E; discriminate E|vm_compute in E; discriminate E].
  exists told, cache, 7, 5, (mkWrite 5 999), c', (mkWrite 4 103). split; [exact cache_fed|].
  split; [apply orderly_b_ok; [apply played_orderly; vm_compute; reflexivity|vm_compute; reflexivity]|]. split; [exact E|].
  vm_compute in E. injection E as <-. vm_compute. split; reflexivity.
Qed.
Print Assumptions C81_older_refuted.
(** It may even have no answer at all after a successful refresh. *)
Theorem C81_nothing_refuted : exists h c k min w c', fed h c /\ orderly (h ++ heard c k min [w]) /\
  refresh_until c k min [w] = Ok (Some c') /\ account_and_slot c' k = None.
Proof.
  destruct (refresh_until cache 10 5 [mkWrite 5 999]) as [[c'|]|] eqn:E; [|vm_compute in E; discriminate E|vm_compute in E; discriminate E].
  exists told, cache, 10, 5, (mkWrite 5 999), c'. split; [exact cache_fed|].
  split; [apply orderly_b_ok; [apply played_orderly; vm_compute; reflexivity|vm_compute; reflexivity]|]. split; [exact E|].
  vm_compute in E. injection E as <-. vm_compute. reflexivity.
Qed.
Print Assumptions C81_nothing_refuted.
