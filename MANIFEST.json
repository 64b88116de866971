{
 "claims": [
  {
   "property": "C01",
   "status": "proved",
   "theorems": [
    "C01_limit_ids_order",
    "C01_pegged_ids_order"
   ],
   "note": ""
  },
  {
   "property": "C02",
   "status": "proved",
   "theorems": [
    "C02_limit_price_round_trip",
    "C02_low_price_rejected",
    "C02_peg_offset_round_trip",
    "C02_peg_data_monotone"
   ],
   "note": ""
  },
  {
   "property": "C03",
   "status": "proved",
   "theorems": [
    "C03_tree_is_sorted_map"
   ],
   "note": ""
  },
  {
   "property": "C04",
   "status": "proved",
   "theorems": [
    "C04_pool_partition",
    "C04_insert_succeeds"
   ],
   "note": "A failed operation returns no new state in the model: the transaction is void."
  },
  {
   "property": "C05",
   "status": "proved",
   "theorems": [
    "C05_expired_found"
   ],
   "note": ""
  },
  {
   "property": "C06",
   "status": "proved",
   "theorems": [
    "C06_tree_listing"
   ],
   "note": ""
  },
  {
   "property": "C07",
   "status": "proved",
   "theorems": [
    "C07_iteration_priority"
   ],
   "note": ""
  },
  {
   "property": "C08",
   "status": "partial",
   "theorems": [
    "C08_iteration_misses_none_refuted",
    "C08_iteration_partial",
    "C08_pegged_listed_partial",
    "C08_misses_one_partial"
   ],
   "note": "The full claim is false (finding F1): C08_iteration_misses_none_refuted gives a reachable book side whose iteration loses a live, in-range order. For every oracle price, C08_iteration_partial proves what is never lost or reordered, C08_pegged_listed_partial says exactly which pegged orders are listed, and C08_misses_one_partial that at most one pegged order in range is lost, only behind a better one out of range."
  },
  {
   "property": "C09",
   "status": "proved",
   "theorems": [
    "C09_offered_price"
   ],
   "note": ""
  },
  {
   "property": "C10",
   "status": "proved",
   "theorems": [
    "C10_heap_is_queue"
   ],
   "note": ""
  },
  {
   "property": "C11",
   "status": "proved",
   "theorems": [
    "C11_slot_stable",
    "C11_empty_slot"
   ],
   "note": ""
  },
  {
   "property": "C12",
   "status": "proved",
   "theorems": [
    "C12_calls_are_sound",
    "C12_fills_within_limit",
    "C12_peg_limit_refuted"
   ],
   "note": "C12_peg_limit_refuted records that the limit of a pegged order while matching is its current price, not its peg limit (finding F14)."
  },
  {
   "property": "C13",
   "status": "proved",
   "theorems": [
    "C13_within_budget"
   ],
   "note": ""
  },
  {
   "property": "C14",
   "status": "partial",
   "theorems": [
    "C14_better_first_bids",
    "C14_better_first_refuted",
    "C14_better_first_partial"
   ],
   "note": "Proved in full for bids (C14_better_first_bids). False for asks limited by quote (finding F13, C14_better_first_refuted); C14_better_first_partial gives the exact exception."
  },
  {
   "property": "C15",
   "status": "proved",
   "theorems": [
    "C15_take_only",
    "C15_post_only",
    "C15_posted_price"
   ],
   "note": ""
  },
  {
   "property": "C16",
   "status": "proved",
   "theorems": [
    "C16_self_trades"
   ],
   "note": ""
  },
  {
   "property": "C17",
   "status": "proved",
   "theorems": [
    "C17_limits"
   ],
   "note": ""
  },
  {
   "property": "C18",
   "status": "partial",
   "theorems": [
    "C18_posting_never_crosses_refuted_bid",
    "C18_posting_never_crosses_refuted_ask",
    "C18_posting_never_crosses_partial"
   ],
   "note": "False in full (findings F12 and F13): see the two refutations. C18_posting_never_crosses_partial holds when the quote budget covers the base quantity or the order is post-only."
  },
  {
   "property": "C19",
   "status": "proved",
   "theorems": [
    "C19_taker_fee",
    "C19_maker_fee",
    "C19_locked_fee",
    "C19_order_fees"
   ],
   "note": ""
  },
  {
   "property": "C20",
   "status": "proved",
   "theorems": [
    "C20_base_conserved"
   ],
   "note": ""
  },
  {
   "property": "C21",
   "status": "proved",
   "theorems": [
    "C21_quote_conserved"
   ],
   "note": ""
  },
  {
   "property": "C22",
   "status": "proved",
   "theorems": [
    "C22_vaults_cover",
    "C22_settling_works"
   ],
   "note": ""
  },
  {
   "property": "C23",
   "status": "proved",
   "theorems": [
    "C23_totals_match"
   ],
   "note": ""
  },
  {
   "property": "C24",
   "status": "proved",
   "theorems": [
    "C24_orders_backed"
   ],
   "note": ""
  },
  {
   "property": "C25",
   "status": "proved",
   "theorems": [
    "C25_drain_any_order",
    "C25_consume_works",
    "C25_consume_given_works"
   ],
   "note": ""
  },
  {
   "property": "C26",
   "status": "proved",
   "theorems": [
    "C26_cancel_works",
    "C26_cancel_all_works",
    "C26_cancel_client_works",
    "C26_prune_works"
   ],
   "note": "cancel_order by id assumes fewer than 2^63 orders were ever numbered, cancel_all fewer than 2^63 lots in the account's orders (beyond these the code can pick an order of the other side, or panic)."
  },
  {
   "property": "C27",
   "status": "proved",
   "theorems": [
    "C27_applied_once"
   ],
   "note": "See also C25_consume_works and C25_consume_given_works, which say exactly which events a call applies."
  },
  {
   "property": "C28",
   "status": "proved",
   "theorems": [
    "C28_order_irrelevant"
   ],
   "note": ""
  },
  {
   "property": "C29",
   "status": "proved",
   "theorems": [
    "C29_signed",
    "C29_others_only_trade",
    "C29_identity"
   ],
   "note": ""
  },
  {
   "property": "C30",
   "status": "proved",
   "theorems": [
    "C30_destinations"
   ],
   "note": ""
  },
  {
   "property": "C31",
   "status": "proved",
   "theorems": [
    "C31_settlement",
    "C31_second_pays_nothing"
   ],
   "note": ""
  },
  {
   "property": "C32",
   "status": "proved",
   "theorems": [
    "C32_stays_expired",
    "C32_only_winds_down"
   ],
   "note": "That winding down remains possible on an expired market is C22_settling_works, C25_drain_any_order and C26_prune_works."
  },
  {
   "property": "C33",
   "status": "proved",
   "theorems": [
    "C33_close_market"
   ],
   "note": ""
  },
  {
   "property": "C34",
   "status": "proved",
   "theorems": [
    "C34_close_account"
   ],
   "note": ""
  },
  {
   "property": "C35",
   "status": "proved",
   "theorems": [
    "C35_ids_distinct",
    "C35_new_id_fresh"
   ],
   "note": ""
  },
  {
   "property": "C36",
   "status": "partial",
   "theorems": [
    "C36_edit_replaces_refuted",
    "C36_edit_partial",
    "C36_edit_pegged_partial"
   ],
   "note": "The full claim is false (finding F2): C36_edit_replaces_refuted. The partial theorems give the exact outcome of every successful edit."
  },
  {
   "property": "C37",
   "status": "partial",
   "theorems": [
    "C37_self_trades_free_refuted",
    "C37_self_fill_partial"
   ],
   "note": "The full claim is false (finding F3): C37_self_trades_free_refuted. C37_self_fill_partial: no fee or rebate is charged on the self fill; what is missing is the release of the maker fee locked for a fixed-price bid. The taker's side is C16_self_trades and C19_order_fees."
  },
  {
   "property": "C38",
   "status": "partial",
   "theorems": [
    "C38_fees_collected_refuted",
    "C38_fees_collected_partial",
    "C38_take_partial"
   ],
   "note": "The full claim is false (finding F4): C38_fees_collected_refuted. C38_fees_collected_partial is an exact balance for all histories without direct take orders; C38_take_partial bounds the effect of those."
  },
  {
   "property": "C39",
   "status": "proved",
   "theorems": [
    "C39_expiry",
    "C39_order_expiry",
    "C39_expired_places_nothing"
   ],
   "note": ""
  },
  {
   "property": "C40",
   "status": "proved",
   "theorems": [
    "C40_deposit_goes_through",
    "C40_refill_goes_through",
    "C40_refill",
    "C40_deposit"
   ],
   "note": ""
  },
  {
   "property": "C41",
   "status": "partial",
   "theorems": [
    "C41_no_oracle",
    "C41_fresh",
    "C41_confident_partial",
    "C41_pyth_confident",
    "C41_pair_confident_partial",
    "C41_nan_refuted",
    "C41_zero_price_refuted",
    "C41_instructions",
    "C41_pegs_rest",
    "C41_peg_needs_price"
   ],
   "note": "Staleness and the absence of a price are proved in full, and the confidence bound in full for Pyth. For oracles reporting doubles the bound is proved for finite numbers (and a first price other than zero in a pair); outside that it is false (findings F15 and F17: C41_nan_refuted, C41_zero_price_refuted). C41_pegs_rest and C41_peg_needs_price state the effect on instructions."
  },
  {
   "property": "C42",
   "status": "proved",
   "theorems": [
    "C42_no_panic",
    "C42_exact",
    "C42_roundtrip",
    "C42_price_accurate",
    "C42_pair_accurate"
   ],
   "note": "Beyond the integer conversion, C42_price_accurate and C42_pair_accurate bound the rounding of the price taken from the oracles in doubles and I80F48."
  },
  {
   "property": "C43",
   "status": "proved",
   "theorems": [
    "C43_quote_is_execution",
    "C43_accounts",
    "C43_crank_accounts"
   ],
   "note": "For market orders sent with place_take_order and the match limit 45 the client assumes. A quote exists also where the execution fails for other reasons (funds, penalty payer)."
  },
  {
   "property": "C44",
   "status": "partial",
   "theorems": [
    "C44_input_refuted",
    "C44_input_partial",
    "C44_fee_refuted",
    "C44_expired_refuted",
    "C44_quote_of_take_partial"
   ],
   "note": "False in full (findings F7, F8): C44_input_refuted, C44_fee_refuted, C44_expired_refuted. C44_input_partial bounds the input by amount times lot size; C44_quote_of_take_partial gives the exact relation between quote and execution when no opposing order expires."
  },
  {
   "property": "C45",
   "status": "partial",
   "theorems": [
    "C45_answer_partial",
    "C45_newest_on_best_chain_partial",
    "C45_snapshot",
    "C45_update_returns",
    "C45_update_loops_refuted",
    "C45_late_fork_refuted",
    "C45_late_slot_refuted",
    "C45_rooted_head_refuted",
    "C45_rpc_parent_refuted",
    "C45_overwrite_refuted"
   ],
   "note": "Full statement is false (refuted: late writes for abandoned forks, slots announced after their child, slots first reported as rooted, parents invented for RPC answers, cyclic parents loop, same-slot writes are not overwritten). Proved for every orderly sequence of notifications (exactly the newest write on the best chain), and for all sequences above the newest rooted slot; snapshot agrees; updates return when parents have smaller numbers."
  },
  {
   "property": "C46",
   "status": "not_applicable",
   "theorems": [],
   "note": "Atomicity of transactions is provided by the Solana runtime, which is not in the repository; the model takes it as given."
  },
  {
   "property": "C47",
   "status": "proved",
   "theorems": [
    "C47_tokens_guarded",
    "C47_only_own_reshaped"
   ],
   "note": ""
  },
  {
   "property": "C48",
   "status": "proved",
   "theorems": [
    "C48_takes_all"
   ],
   "note": ""
  },
  {
   "property": "C49",
   "status": "proved",
   "theorems": [
    "C49_room"
   ],
   "note": ""
  },
  {
   "property": "C50",
   "status": "partial",
   "theorems": [
    "C50_room_found_refuted",
    "C50_room_found_partial"
   ],
   "note": "The full claim is false (finding F11): C50_room_found_refuted. C50_room_found_partial: on every side, once the worst order was dropped there is room, except in exactly that case."
  },
  {
   "property": "C51",
   "status": "proved",
   "theorems": [
    "C51_orders_persist",
    "C51_others_leave_the_book"
   ],
   "note": ""
  },
  {
   "property": "C52",
   "status": "proved",
   "theorems": [
    "C52_market_can_be_wound_down",
    "C52_no_fees_no_locks"
   ],
   "note": ""
  },
  {
   "property": "C53",
   "status": "proved",
   "theorems": [
    "C53_terms_never_change",
    "C53_only_admin_expires"
   ],
   "note": ""
  },
  {
   "property": "C54",
   "status": "proved",
   "theorems": [
    "C54_refresh_affordable",
    "C54_refresh_replaces"
   ],
   "note": ""
  },
  {
   "property": "C55",
   "status": "proved",
   "theorems": [
    "C55_walks_end"
   ],
   "note": ""
  },
  {
   "property": "C56",
   "status": "proved",
   "theorems": [
    "C56_order_goes_through",
    "C56_plain_order_succeeds",
    "C56_pegged_goes_through",
    "C56_take_goes_through",
    "C56_edit_goes_through",
    "C56_edit_pegged_goes_through"
   ],
   "note": ""
  },
  {
   "property": "C57",
   "status": "proved",
   "theorems": [
    "C57_each_market_alone",
    "C57_others_untouched",
    "C57_vaults_apart"
   ],
   "note": ""
  },
  {
   "property": "C58",
   "status": "proved",
   "theorems": [
    "C58_indexers_right",
    "C58_opens",
    "C58_opened",
    "C58_closes",
    "C58_indexer_closes",
    "C58_no_reuse",
    "C58_reuse_after_closing"
   ],
   "note": ""
  },
  {
   "property": "C59",
   "status": "proved",
   "theorems": [
    "C59_same_trade",
    "C59_direct",
    "C59_through_accounts",
    "C59_direct_or_through"
   ],
   "note": ""
  },
  {
   "property": "C60",
   "status": "proved",
   "theorems": [
    "C60_same_end",
    "C60_same_book"
   ],
   "note": ""
  },
  {
   "property": "C61",
   "status": "proved",
   "theorems": [
    "C61_owner_can_leave"
   ],
   "note": ""
  },
  {
   "property": "C62",
   "status": "proved",
   "theorems": [
    "C62_others_only_trade",
    "C62_nothing_at_risk"
   ],
   "note": ""
  },
  {
   "property": "C63",
   "status": "proved",
   "theorems": [
    "C63_every_match_reported",
    "C63_account_volumes",
    "C63_order",
    "C63_consumed"
   ],
   "note": ""
  },
  {
   "property": "C64",
   "status": "proved",
   "theorems": [
    "C64_deposit",
    "C64_settle",
    "C64_sweep",
    "C64_delegate"
   ],
   "note": ""
  },
  {
   "property": "C65",
   "status": "partial",
   "theorems": [
    "C65_taker_fees_partial",
    "C65_taker_fees_refuted",
    "C65_positions_refuted",
    "C65_direct_take_partial",
    "C65_direct_take_refuted"
   ],
   "note": "All three parts are false (C65_taker_fees_refuted, C65_direct_take_refuted, C65_positions_refuted). Proved instead: the stated fees are never below the order's fee and above by at most one unit per fill (C65_taker_fees_partial); the summary of a direct take states the base that moved, and the quote that moved is the quote traded and the makers' rebates, without the rest of the stated fee (C65_direct_take_partial)."
  },
  {
   "property": "C66",
   "status": "proved",
   "theorems": [
    "C66_own_instructions",
    "C66_settling"
   ],
   "note": ""
  },
  {
   "property": "C67",
   "status": "proved",
   "theorems": [
    "C67_penalties_add_up",
    "C67_counters",
    "C67_who_pays",
    "C67_enough",
    "C67_closing"
   ],
   "note": "Rent is not modelled."
  },
  {
   "property": "C68",
   "status": "partial",
   "theorems": [
    "C68_closing_partial",
    "C68_stuck",
    "C68_refuted"
   ],
   "note": "Proved: the account can be closed exactly if its penalties are paid (C68_closing_partial). Refuted in full: one order that drops an expired order and trades nothing leaves an account with a penalty and nothing else; closing the market does not look at it, settling needs the market, and so the account can never be closed (C68_refuted, C68_stuck; finding F27)."
  },
  {
   "property": "C69",
   "status": "proved",
   "theorems": [
    "C69_direct",
    "C69_through",
    "C69_budget",
    "C69_list"
   ],
   "note": "The asks of a list of orders are only bounded by what the sender holds: the interface gives them no base maximum."
  },
  {
   "property": "C70",
   "status": "proved",
   "theorems": [
    "C70_fits"
   ],
   "note": "Justifies modelling the stored numbers as unbounded integers."
  },
  {
   "property": "C71",
   "status": "partial",
   "theorems": [
    "C71_reads_book_partial",
    "C71_expiry_partial",
    "C71_depth_partial",
    "C71_pegged_fails",
    "C71_pegged_refuted",
    "C71_expiry_refuted",
    "C71_best_refuted"
   ],
   "note": "Holds for limit orders. Refuted for sides with a pegged order (all readers throw), for orders in the second they expire, and for best and depth, which include expired orders."
  },
  {
   "property": "C72",
   "status": "partial",
   "theorems": [
    "C72_own_orders_partial",
    "C72_pegged_fails"
   ],
   "note": "Holds for accounts without pegged orders; with one, the list throws."
  },
  {
   "property": "C73",
   "status": "partial",
   "theorems": [
    "C73_balance_partial",
    "C73_fills_refuted"
   ],
   "note": "Proved up to the waiting fills and fees locked beyond need. Refuted with fills waiting: they are never counted, because the maker is compared with the owner's wallet."
  },
  {
   "property": "C74",
   "status": "partial",
   "theorems": [
    "C74_raw_events",
    "C74_accounts_partial",
    "C74_stuck_refuted",
    "C74_for_account_nothing"
   ],
   "note": "Reading is exact, and events in the first 21 slots are covered. Refuted: events in later slots can be stuck behind stale slots, and consuming for one account never consumes anything."
  },
  {
   "property": "C75",
   "status": "partial",
   "theorems": [
    "C75_stored_never_found",
    "C75_found_refuted",
    "C75_stored_mints_at",
    "C75_few_partial",
    "C75_many_missed",
    "C75_mints_find_nothing",
    "C75_right_offsets"
   ],
   "note": "Up to 50 transactions are inspected once each; of more only the first 50, repeatedly. The search by mints uses wrong offsets and finds no market at all; the right ones are proved. The same on the stored bytes of every market."
  },
  {
   "property": "C76",
   "status": "partial",
   "theorems": [
    "C76_owner_can",
    "C76_cancel_all_partial",
    "C76_owner_must_sign",
    "C76_delegate_refuted",
    "C76_accounts_passed",
    "C76_own_account_refuted"
   ],
   "note": "Holds for the owner. Refuted for delegates, who cannot cancel through the client, and for orders that meet one's own among the first three owners, which fail because the own account is passed along."
  },
  {
   "property": "C77",
   "status": "partial",
   "theorems": [
    "C77_authentic",
    "C77_no_panic",
    "C77_one_request",
    "C77_always_returns",
    "C77_remembered",
    "C77_error_forgotten",
    "C77_fresh_partial",
    "C77_same_answers_partial",
    "C77_clear_refuted",
    "C77_abandoned_refuted",
    "C77_backwards_refuted"
   ],
   "note": "Authentic answers, no panic, one request, always returning, remembering and forgetting are proved. Refuted: after clearing, data read before it can be returned; abandoned requests answer later calls with old data; and a cached account can go back to older data."
  },
  {
   "property": "C78",
   "status": "partial",
   "theorems": [
    "C78_sizes_partial",
    "C78_over_budget",
    "C78_budget_refuted",
    "C78_base_lots",
    "C78_base_short",
    "C78_dollars"
   ],
   "note": "Right for base sizes in native units, and for quote sizes whose fee is below one unit. Whenever the fee is a unit or more the size exceeds the budget (witness: an order pays more than its budget); base sizes in whole tokens are always too small. Sizes in dollars are right on markets without fees and over the budget with fees."
  },
  {
   "property": "C79",
   "status": "partial",
   "theorems": [
    "C79_cancel_and_settle_partial",
    "C79_places",
    "C79_cancels",
    "C79_deposits",
    "C79_admin_blocks",
    "C79_consumes_nothing"
   ],
   "note": "Orders that can be paid for go through, orders of the account are cancelled by their ids, and deposits bring exactly their amounts. The owner can always cancel and be paid out. On markets with an open orders admin nobody can place an order through the client, and consuming events through it never consumes one."
  },
  {
   "property": "C80",
   "status": "partial",
   "theorems": [
    "C80_finds",
    "C80_creates_partial",
    "C80_created",
    "C80_first_fails",
    "C80_closed_newest_refuted",
    "C80_ts_creates",
    "C80_ts_created"
   ],
   "note": "Proved for the TypeScript client. The Rust client succeeds exactly if the account numbered last is still open; it can never create an owner's first account."
  },
  {
   "property": "C81",
   "status": "partial",
   "theorems": [
    "C81_refreshed_partial",
    "C81_fresh_partial",
    "C81_older_refuted",
    "C81_nothing_refuted"
   ],
   "note": "Holds if the slot of the node's answer is on the best chain, in particular above the head. Refuted otherwise: the refresh succeeds and the cache answers with older data or none."
  },
  {
   "property": "C82",
   "status": "proved",
   "theorems": [
    "C82_round_trip",
    "C82_layouts",
    "C82_orders",
    "C82_events",
    "C82_account",
    "C82_market"
   ],
   "note": "General round trip for layouts without gaps; the program's structs have none; book sides, event heap, open orders accounts and market in every state on chain."
  },
  {
   "property": "C83",
   "status": "partial",
   "theorems": [
    "C83_indexer_decodes",
    "C83_finds_all",
    "C83_finds_for_market",
    "C83_rust_finds",
    "C83_loads_partial",
    "C83_too_many",
    "C83_closed_market",
    "C83_loads_refuted"
   ],
   "note": "The lists are right in every state on chain (TypeScript: all and per market; Rust: by filters). Loading is right up to fifty accounts on markets not closed; it fails for more accounts, and for all of them if one market is closed."
  },
  {
   "property": "C84",
   "status": "partial",
   "theorems": [
    "C84_price_partial",
    "C84_size_partial",
    "C84_price_down",
    "C84_size_down",
    "C84_shown_price_partial",
    "C84_shown_size_partial",
    "C84_price_refuted",
    "C84_sent",
    "C84_deal",
    "C84_sell_refuted"
   ],
   "note": "Proved while the price in the smallest units (ticks * quote lot size * 10^base decimals) and the size in native units are at most 2^50; beyond it is false (8.03 is sent as 8.02). Shown prices need a tick of at most 20 decimal places. Prices between ticks are rounded down on both sides, so a seller may offer below the price given."
  },
  {
   "property": "C85",
   "status": "proved",
   "theorems": [
    "C85_last",
    "C85_only_owner",
    "C85_market",
    "C85_taken",
    "C85_closed",
    "C85_negative_refuted"
   ],
   "note": "Addresses derived from different owners or mints are assumed to differ. A negative price is accepted by a market whose confidence filter is 0, and after closing every order of a market that reads the account fails."
  },
  {
   "property": "C86",
   "status": "partial",
   "theorems": [
    "C86_consume",
    "C86_given_partial",
    "C86_given_never",
    "C86_given_refuted",
    "C86_deposit",
    "C86_deposit_others",
    "C86_prune",
    "C86_close_market"
   ],
   "note": "Consuming in order, deposits by the owner, pruning and closing are proved. Consuming given slots is proved for markets with an admin; without one the client marks the default key as a signer, so nobody can do it (C86_given_never, C86_given_refuted)."
  },
  {
   "property": "C87",
   "status": "partial",
   "theorems": [
    "C87_price_partial",
    "C87_size_partial",
    "C87_quote_partial",
    "C87_price_near",
    "C87_same_partial",
    "C87_native",
    "C87_price_refuted",
    "C87_native_refuted"
   ],
   "note": "Proved for prices of whole smallest units of the quote token and sizes up to 2^50 units. With a finer tick it is false: 0.0000015 becomes 20 ticks instead of 15 (C87_price_refuted). The price in smallest units is correct but 0 for usual markets (C87_native_refuted)."
  },
  {
   "property": "C88",
   "status": "partial",
   "theorems": [
    "C88_goes_partial",
    "C88_is_deposit",
    "C88_needs_tokens",
    "C88_refuted"
   ],
   "note": "False: the deposit is taken from the account the caller names, not from the one the SOL was wrapped into (C88_refuted, C88_needs_tokens). Proved: the call is the plain deposit, all SOL comes back, and it goes through when the owner has the tokens as well."
  },
  {
   "property": "C89",
   "status": "proved",
   "theorems": [
    "C89_opens",
    "C89_opened",
    "C89_stale"
   ],
   "note": ""
  },
  {
   "property": "C90",
   "status": "proved",
   "theorems": [
    "C90_creates",
    "C90_created",
    "C90_alone"
   ],
   "note": "The length of the name (16 bytes) and the types of the oracle accounts, which the program also checks, are not part of the model."
  },
  {
   "property": "C91",
   "status": "proved",
   "theorems": [
    "C91_over",
    "C91_stays",
    "C91_among_others",
    "C91_again",
    "C91_other_vaults"
   ],
   "note": "What happens on the second market after its creation is not part of the machine of many markets; C91_again gives its first state."
  }
 ]
}