{"id": "C01", "title": "Order ids encode price-time priority", "statement": "Comparing two order ids of the same side compares price first (higher is better for bids, lower for asks) and, at equal price, the earlier order is better. This holds for limit orders and, at a given oracle price, for oracle-pegged orders.", "quantifier": "for every pair of prices/offsets, every pair of sequence numbers, both sides", "why_tests_cant": "the ordering must hold over all 2^64 x 2^64 price/sequence pairs, including the bit-complement used on bids", "anchors": ["programs/openbook-v2/src/state/orderbook/nodes.rs:new_node_key,oracle_pegged_price_data,fixed_price_data"]}
{"id": "C02", "title": "Price encoding round-trips", "statement": "The price (or signed oracle offset) stored in an order id is recovered exactly: decode(encode(x)) = x for every limit price >= 1 and for every signed 64-bit offset, encoding preserves order, and prices below 1 are rejected.", "quantifier": "for every i64 price and offset, side and sequence number", "why_tests_cant": "wrapping addition of 2^63 and bit shifts at the extreme values cannot be enumerated", "anchors": ["programs/openbook-v2/src/state/orderbook/nodes.rs:oracle_pegged_price_offset,fixed_price_lots,LeafNode::price_data"]}
{"id": "C03", "title": "Order tree behaves as a sorted map", "statement": "Whatever sequence of insertions and removals was applied to the two trees (limit and pegged) of a book side that share one node pool, looking at either tree shows exactly the orders inserted and not yet removed, in key order; removal returns the stored order or nothing when absent; operating on one tree never changes the other.", "quantifier": "for every finite sequence of inserts and removes on both trees from the empty book side, every key and order content", "why_tests_cant": "the state is a 1024-node arena with hand-managed indices; tests sample a few random sequences", "anchors": ["programs/openbook-v2/src/state/orderbook/ordertree.rs:insert_leaf,remove_by_key", "programs/openbook-v2/src/state/orderbook/bookside.rs"]}
{"id": "C04", "title": "Node pool never leaks or double-allocates", "statement": "At every moment each of the 1024 pool nodes is exactly one of: part of one of the two trees, on the free list, or never used. The free list length counter is exact. An insertion of a new key succeeds whenever the book side does not report itself full, and a failed insertion changes nothing observable.", "quantifier": "for every history of inserts and removes", "why_tests_cant": "leaks or aliasing only show after particular long interleavings of inserts and removes", "anchors": ["programs/openbook-v2/src/state/orderbook/ordertree.rs:insert,remove,is_full,insert_leaf"]}
{"id": "C05", "title": "Expired orders are found when there are any", "statement": "Asking a book side to drop one expired order removes an order whose expiry is before now if and only if one exists in that tree (it never removes an order that is not expired), and the order removed is one with the smallest expiry.", "quantifier": "for every history of inserts and removes and every clock value", "why_tests_cant": "depends on cached minima along every root-to-leaf path being right after every update", "anchors": ["programs/openbook-v2/src/state/orderbook/ordertree.rs:find_earliest_expiry,update_parent_earliest_expiry,remove_one_expired"]}
{"id": "C06", "title": "Tree iteration is sorted and complete", "statement": "Iterating one tree yields every order in it exactly once, best first (bids descending, asks ascending), and reports an item count equal to the tree's leaf counter.", "quantifier": "for every reachable tree", "why_tests_cant": "unbounded tree shapes up to 1024 nodes", "anchors": ["programs/openbook-v2/src/state/orderbook/ordertree_iterator.rs", "programs/openbook-v2/src/state/orderbook/ordertree.rs:leaf_count"]}
{"id": "C07", "title": "Merged book iteration respects price-time priority", "statement": "When no pegged order's price is out of range at the current oracle price, iterating a book side yields every limit order and every pegged order exactly once, ordered best price first and oldest first at equal price, each with its price at the current oracle price.", "quantifier": "for every reachable book side, clock and oracle price", "why_tests_cant": "merges two independent trees with different key encodings", "anchors": ["programs/openbook-v2/src/state/orderbook/bookside_iterator.rs:BookSideIter::next,rank_orders,key_for_fixed_price"]}
{"id": "C08", "title": "Merged iteration misses no matchable order (finding: false)", "statement": "Every valid order on a book side is visited by iteration, also when some pegged orders are out of range at the current oracle price.", "quantifier": "for every book side, clock and oracle price", "why_tests_cant": "needs a pegged order out of range followed by in-range ones", "anchors": ["programs/openbook-v2/src/state/orderbook/bookside_iterator.rs:BookSideIter::next lines 176-185"]}
{"id": "C09", "title": "A pegged order never trades beyond its peg limit or out of range", "statement": "Whatever the oracle price, a pegged order offered for matching has price = oracle + offset, at least 1 and below the maximum, and never better for the taker than its peg limit: a bid never pays more than peg_limit, an ask never sells below it.", "quantifier": "for every oracle price, offset, peg limit and side", "why_tests_cant": "saturating arithmetic over all i64 pairs", "anchors": ["programs/openbook-v2/src/state/orderbook/bookside_iterator.rs:oracle_pegged_price"]}
{"id": "C10", "title": "Event heap is a FIFO queue with deletion by slot", "statement": "Whatever sequence of pushes, pops and deletions by slot is applied, the heap contains exactly the events pushed and not yet removed, iteration lists them oldest first, pop returns the oldest, the reported length is exact, a push succeeds exactly when fewer than 600 events are stored, and the sequence number counts pushes.", "quantifier": "for every finite history from initialisation", "why_tests_cant": "intrusive free/used linked lists over 600 slots; aliasing needs long interleavings", "anchors": ["programs/openbook-v2/src/state/orderbook/heap.rs:push_back,delete_slot,pop_front,EventHeapIterator"]}
{"id": "C11", "title": "Events keep their slot until removed", "statement": "The slot reported for an event stays valid: reading that slot returns that event until exactly that slot is deleted, whatever other events are added or removed; deleting an empty or out-of-range slot is an error that changes nothing.", "quantifier": "for every history of pushes and deletions", "why_tests_cant": "slot reuse bugs only show in specific interleavings", "anchors": ["programs/openbook-v2/src/state/orderbook/heap.rs:at_slot,delete_slot"]}
{"id": "C12", "title": "No fill is worse than the order's limit price", "statement": "Every fill produced by a new order is at the resting order's current price and within the new order's limit: a buyer never pays more than their limit price per lot, a seller never receives less.", "quantifier": "for every book, order, oracle price, clock and match limit", "why_tests_cant": "all book shapes and order parameters", "anchors": ["programs/openbook-v2/src/state/orderbook/book.rs:new_order"]}
{"id": "C13", "title": "A buy never costs more than the stated maximum", "statement": "For any buy order the total quote charged for the taken part, the taker fee, the posted part and the locked maker fee is at most max_quote_lots_including_fees times the quote lot size; base bought plus posted is at most max_base_lots. For a sell, base sold plus posted is at most max_base_lots and quote received before fees is at most the maximum quote.", "quantifier": "for every market fee schedule and lot sizes, book, order", "why_tests_cant": "three separate rounding steps (floor of net amount, ceil of taker fee, ceil of maker fee) must never conspire", "anchors": ["programs/openbook-v2/src/state/orderbook/book.rs:new_order", "programs/openbook-v2/src/state/market.rs:subtract_taker_fees,maker_fees_ceil,taker_fees_ceil"]}
{"id": "C14", "title": "Better orders are filled first", "statement": "The resting orders filled by a new order are filled in the order the book lists them, and an order is only filled after every valid order listed before it has been completely filled or (if it is the taker's own and they asked for it) cancelled.", "quantifier": "for every book and order", "why_tests_cant": "universally quantified over books", "anchors": ["programs/openbook-v2/src/state/orderbook/book.rs:new_order"]}
{"id": "C15", "title": "Order types do what they say", "statement": "Immediate-or-cancel, market and fill-or-kill orders never leave anything on the book; post-only orders never trade; a fill-or-kill order that succeeds is filled for its whole base quantity; a post-only-slide order is never priced worse for its owner than requested nor at or through the best opposing price.", "quantifier": "for every order, book, oracle price and clock", "why_tests_cant": "all parameter combinations", "anchors": ["programs/openbook-v2/src/state/orderbook/order.rs", "programs/openbook-v2/src/state/orderbook/book.rs:new_order"]}
{"id": "C16", "title": "Self-trade settings are honoured", "statement": "With 'abort', an order that would trade with the same account fails as a whole; with 'cancel provide' no fill between the account and itself happens and the own resting order met is cancelled and refunded; with 'decrement take' a self fill charges no taker fee and pays no rebate.", "quantifier": "for every book, taker account and order", "why_tests_cant": "needs all interleavings of own and foreign orders", "anchors": ["programs/openbook-v2/src/state/orderbook/book.rs:new_order lines 185-213", "programs/openbook-v2/src/state/orderbook/order_type.rs:SelfTradeBehavior"]}
{"id": "C17", "title": "Match limit and drop limit are respected", "statement": "One order produces at most `limit` fills, removes at most five invalid opposing orders while matching, and adds at most limit + 7 events to the heap.", "quantifier": "for every book, order and limit", "why_tests_cant": "bounds compute use for any book", "anchors": ["programs/openbook-v2/src/state/orderbook/book.rs:new_order,DROP_EXPIRED_ORDER_LIMIT"]}
{"id": "C18", "title": "Posting never crosses the book", "statement": "When an order is placed on the book, no valid order that iteration shows on the opposing side at that moment is at or through the new order's price.", "quantifier": "for every book, order, oracle price and clock", "why_tests_cant": "all book states; depends on each early exit of the matching loop dropping the posting", "anchors": ["programs/openbook-v2/src/state/orderbook/book.rs:new_order"]}
{"id": "C19", "title": "Fees are exact and bounded", "statement": "The taker fee is the exact fee rounded up, never more than the trade amount and never less than the sum of rebates paid to makers out of it; the maker fee is rounded down on each fill, and partial fills plus a final cancellation never need more than was locked when the bid was posted.", "quantifier": "for every fee schedule accepted at market creation, all amounts and every way of splitting an order into fills", "why_tests_cant": "inequalities over unbounded splittings", "anchors": ["programs/openbook-v2/src/state/market.rs:taker_fees_ceil,maker_fees_floor,maker_rebate_floor,maker_fees_ceil,ceil_fee_division"]}
{"id": "C20", "title": "Base tokens are conserved", "statement": "After every history, the market's recorded base deposits equal the sum over accounts of free base and base locked in asks, corrected by the fills still waiting in the event heap.", "quantifier": "for every finite sequence of instructions by any users with any arguments, clocks and oracle prices", "why_tests_cant": "global invariant over unbounded histories and numbers of accounts", "anchors": ["programs/openbook-v2/src/state/open_orders_account.rs", "programs/openbook-v2/src/instructions"]}
{"id": "C21", "title": "Quote tokens are conserved", "statement": "After every history, the market's recorded quote deposits equal the sum over accounts of free quote, quote locked in bids, locked maker fees and unpaid referrer rebates, plus fees available to the admin, corrected by fills (and their rebates) waiting in the event heap.", "quantifier": "for every finite sequence of instructions by any users with any arguments, clocks and oracle prices", "why_tests_cant": "global invariant over unbounded histories with rounding", "anchors": ["programs/openbook-v2/src/state/open_orders_account.rs:execute_maker,execute_taker,cancel_order", "programs/openbook-v2/src/instructions/settle_funds.rs"]}
{"id": "C22", "title": "The vaults always cover what users can withdraw", "statement": "At every moment each vault holds at least the recorded deposits, and recorded deposits are at least the sum of everything withdrawable now (free balances, unpaid rebates, available fees); settling never fails for lack of vault funds.", "quantifier": "for every history and every account", "why_tests_cant": "solvency is a global invariant", "anchors": ["programs/openbook-v2/src/instructions/settle_funds.rs", "programs/openbook-v2/src/instructions/place_take_order.rs"]}
{"id": "C23", "title": "Referrer rebate and volume totals match the accounts", "statement": "The market's accrued referrer rebates equal the sum of the accounts' available rebates; the market's maker volume equals the sum of the accounts' maker volumes; and taker volume (with and without accounts) equals maker volume plus the volume still waiting in the heap, for accounts that were never closed.", "quantifier": "for every history", "why_tests_cant": "fuzzed in the repository by sampling only", "anchors": ["programs/openbook-v2/src/state/open_orders_account.rs", "programs/openbook-v2/fuzz/fuzz_targets/multiple_orders.rs"]}
{"id": "C24", "title": "Every resting order is backed by its owner's account", "statement": "At every moment each order on the book belongs to exactly one used order slot of an existing account with the same id, side and tree; each used slot has exactly one resting order or one final event in the heap; the locked totals of each account equal the sum over its resting orders and waiting events.", "quantifier": "for every history, account and order", "why_tests_cant": "global invariant linking three data structures", "anchors": ["programs/openbook-v2/src/state/orderbook/book.rs", "programs/openbook-v2/src/state/open_orders_account.rs:add_order,remove_order", "programs/openbook-v2/src/instructions/consume_events.rs"]}
{"id": "C25", "title": "No event can get stuck", "statement": "At every moment, consuming events with the accounts they mention always succeeds: there is never an event whose processing would fail, so the heap can always be drained, in any order of slots.", "quantifier": "for every reachable state, every choice of slots and accounts", "why_tests_cant": "a poisoned event would halt the market; it requires absence of every underflow and overflow in all states", "anchors": ["programs/openbook-v2/src/instructions/consume_events.rs", "programs/openbook-v2/src/state/open_orders_account.rs:execute_maker,cancel_order,remove_order"]}
{"id": "C26", "title": "Cancelling refunds exactly what was locked", "statement": "Cancelling a resting order always succeeds, removes exactly that order from the book, frees its slot, and gives back the base lots (ask) or the quote at the locked price plus the maker fee for the remaining quantity (bid); no other account or order changes.", "quantifier": "for every reachable state and order", "why_tests_cant": "all states", "anchors": ["programs/openbook-v2/src/state/orderbook/book.rs:cancel_order,cancel_all_orders", "programs/openbook-v2/src/state/open_orders_account.rs:cancel_order"]}
{"id": "C27", "title": "Events are applied exactly once", "statement": "Consuming events applies each selected event whose account was supplied exactly once and removes it; events whose account is missing stay unchanged and in place; at most eight events are processed per call; duplicated slot arguments have no extra effect.", "quantifier": "for every heap, list of slots and list of accounts", "why_tests_cant": "all lists of slots with repetitions", "anchors": ["programs/openbook-v2/src/instructions/consume_events.rs:consume_events"]}
{"id": "C28", "title": "The order of consuming events does not matter", "statement": "Processing two waiting events in either order leaves all accounts' balances and the market totals the same.", "quantifier": "for every reachable state and pair of events", "why_tests_cant": "pairs of events over all states, including the final fill of an order consumed before an earlier partial fill", "anchors": ["programs/openbook-v2/src/instructions/consume_events.rs", "programs/openbook-v2/src/state/open_orders_account.rs:execute_maker"]}
{"id": "C29", "title": "Only the owner or delegate controls an account", "statement": "An instruction reduces an account's free balances, cancels or places its orders, or changes its delegate only if signed by its owner or (except for changing the delegate) its delegate, or by the market's closing admin on an expired market; otherwise other users' instructions only apply trades to its resting orders. Whoever acts, an account keeps its owner, number and version until it is closed.", "quantifier": "for every instruction, signer and state", "why_tests_cant": "all instructions and argument combinations", "anchors": ["programs/openbook-v2/src/accounts_ix", "programs/openbook-v2/src/state/open_orders_account.rs:is_owner_or_delegate"]}
{"id": "C30", "title": "A delegate cannot withdraw to itself", "statement": "Settling through a delegate only sends base and quote to token accounts owned by the account owner; the closing admin's settlement does the same.", "quantifier": "for every signer, account and destination", "why_tests_cant": "all destinations", "anchors": ["programs/openbook-v2/src/state/open_orders_account.rs:is_settle_destination_allowed", "programs/openbook-v2/src/accounts_ix/settle_funds.rs", "programs/openbook-v2/src/accounts_ix/settle_funds_expired.rs"]}
{"id": "C31", "title": "Settling pays out exactly the free balances", "statement": "A successful settlement transfers exactly the account's free base and quote to the given destinations, the rebates (and, when no bids are open, left-over locked maker fees) to the referrer or the admin's fees, and zeroes them; settling twice in a row pays nothing the second time.", "quantifier": "for every state and account", "why_tests_cant": "all states", "anchors": ["programs/openbook-v2/src/instructions/settle_funds.rs"]}
{"id": "C32", "title": "An expired market only winds down", "statement": "Once a market has expired, no order can be placed and nothing deposited, it never becomes unexpired, and cancelling, consuming events and settling remain possible.", "quantifier": "for every history with a non-decreasing clock", "why_tests_cant": "temporal property over histories", "anchors": ["programs/openbook-v2/src/state/market.rs:is_expired", "programs/openbook-v2/src/instructions/set_market_expired.rs,place_order.rs,deposit.rs"]}
{"id": "C33", "title": "A market can be closed only when nobody is owed anything", "statement": "When closing a market succeeds, every account's balances and locked amounts in it are zero, no order rests on the book and no event waits.", "quantifier": "for every reachable state", "why_tests_cant": "global invariant", "anchors": ["programs/openbook-v2/src/instructions/close_market.rs"]}
{"id": "C34", "title": "An account can be closed only when nothing refers to it", "statement": "When closing an account succeeds it has no balances, all its order slots are free, no order on the book and no event in the heap refers to it.", "quantifier": "for every reachable state", "why_tests_cant": "the check looks only at totals; that totals of zero imply no references is a global invariant", "anchors": ["programs/openbook-v2/src/instructions/close_open_orders_account.rs", "programs/openbook-v2/src/state/open_orders_account.rs:Position::is_empty"]}
{"id": "C35", "title": "Order ids are never reused", "statement": "Every order placed in a market gets an id different from that of every order placed before on the same side.", "quantifier": "for every history", "why_tests_cant": "all histories", "anchors": ["programs/openbook-v2/src/state/market.rs:gen_order_id"]}
{"id": "C36", "title": "Editing an order replaces it (finding: false)", "statement": "Editing an order that is still entirely unfilled cancels it and places the replacement.", "quantifier": "for every state and edit arguments with a valid replacement order", "why_tests_cant": "the repository's test only covers a partially filled order", "anchors": ["programs/openbook-v2/src/instructions/edit_order.rs:edit_order"]}
{"id": "C37", "title": "Self trades are free of fees (finding: false)", "statement": "A self-trade in 'decrement take' mode costs the account nothing in fees.", "quantifier": "for every state where an account trades with its own resting order", "why_tests_cant": "needs a positive maker fee and a resting limit bid of the same account", "anchors": ["programs/openbook-v2/src/state/open_orders_account.rs:execute_maker", "programs/openbook-v2/src/instructions/settle_funds.rs"]}
{"id": "C38", "title": "Accrued fees equal fees collected (finding: false)", "statement": "The market's total accrued fees never exceed the fees actually collected from traders.", "quantifier": "for every history", "why_tests_cant": "needs a direct take order, whose taker does not pay the referrer part that is nevertheless recorded", "anchors": ["programs/openbook-v2/src/instructions/place_take_order.rs", "programs/openbook-v2/src/state/orderbook/book.rs:new_order line 280"]}
{"id": "C39", "title": "Orders expire no later than requested", "statement": "An accepted expiry timestamp gives an order that is treated as invalid by matching from that time on at the latest (never later than 65535 seconds from now), an expiry in the past places nothing, and zero means it never expires.", "quantifier": "for every timestamp and clock", "why_tests_cant": "all u64 timestamps", "anchors": ["programs/openbook-v2/src/state/orderbook/order.rs:tif_from_expiry", "programs/openbook-v2/src/state/orderbook/nodes.rs:LeafNode::is_expired,expiry"]}
{"id": "C40", "title": "Refill deposits only the shortfall", "statement": "After a successful refill the account's free balances are at least the requested amounts and the user paid exactly the shortfall. On a market that is open and not expired, a deposit into any account, and a refill, goes through whenever the sender's token accounts hold what is to be paid and the vaults can take it.", "quantifier": "for every state and amounts", "why_tests_cant": "all amounts", "anchors": ["programs/openbook-v2/src/lib.rs:refill", "programs/openbook-v2/src/instructions/deposit.rs"]}
{"id": "C41", "title": "Stale or uncertain oracle prices are never used", "statement": "A market price from oracles is used only if every configured oracle was updated within the configured number of slots (when a limit is set) and its confidence is within the configured bound; a market without oracle never gets a price.", "quantifier": "for every oracle state, configuration and slot", "why_tests_cant": "all slot numbers including wrap-around and sentinel values", "anchors": ["programs/openbook-v2/src/state/oracle.rs:is_stale,has_valid_confidence", "programs/openbook-v2/src/state/market.rs:oracle_price"]}
{"id": "C42", "title": "Price conversion to lots is exact up to one lot", "statement": "Converting a native oracle price to lots never panics, and when it succeeds the result is the exact value rounded down to within one lot (for positive prices).", "quantifier": "for every I80F48 price and lot sizes", "why_tests_cant": "fixed-point multiplication and division over the whole range", "anchors": ["programs/openbook-v2/src/state/market.rs:native_price_to_lot"]}
{"id": "C43", "title": "The client's quote equals the executed trade", "statement": "For the same book, clock, oracle price, limits and match limit, the amounts computed by the client library for a take order equal the amounts executed on chain. The accounts it suggests for cranking are exactly those of the owners of the best valid opposing orders, without repetition and at most three.", "quantifier": "for every book, side and amounts", "why_tests_cant": "two independently written loops must agree on every book", "anchors": ["lib/client/src/book.rs:iterate_book,amounts_from_book,remaining_accounts_to_crank", "programs/openbook-v2/src/state/orderbook/book.rs:new_order"]}
{"id": "C44", "title": "A swap quote never consumes more than the input (finding: false)", "statement": "The router quote for an input amount consumes at most that amount.", "quantifier": "for every book and input amount", "why_tests_cant": "needs a lot size above one", "anchors": ["lib/client/src/jup.rs:quote"]}
{"id": "C45", "title": "Account cache returns the newest live write", "statement": "The client's chain data cache keeps each account's writes in slot order and returns the newest write that is on the current best chain (or rooted); a newer write for the same slot replaces what is returned.", "quantifier": "for every sequence of slot and account updates", "why_tests_cant": "arbitrary interleavings of slot and account notifications, forks and late data", "anchors": ["lib/client/src/chain_data.rs"]}
{"id": "C46", "title": "A committed or failed instruction is all-or-nothing", "statement": "An instruction that fails changes no balance, no order and no event.", "quantifier": "for every instruction and state", "why_tests_cant": "runtime guarantee, listed for completeness", "anchors": ["programs/openbook-v2/src/lib.rs"]}
{"id": "C47", "title": "Tokens leave only the signer's accounts or the market's vaults", "statement": "No instruction makes a token account disappear or change owner, and it lowers the balance of a token account only if its owner signed the instruction, or the account belongs to the market's authority and the instruction is one that pays out (settling, sweeping fees, taking without an account).", "quantifier": "for every instruction, every argument and every state", "why_tests_cant": "all instructions and all account arguments, including hostile ones", "anchors": ["programs/openbook-v2/src/token_utils.rs", "programs/openbook-v2/src/accounts_ix", "programs/openbook-v2/src/instructions"]}
{"id": "C48", "title": "Matching does not stop early", "statement": "After placing an order that may take, every order of the opposite side that may trade and whose price the new order accepts has been filled completely (or cancelled as the taker's own), unless the new order traded everything it asked for, the match limit is used up, or what is left of its quote budget does not reach the price of that order or of one with at least as good a price.", "quantifier": "for every book, every order and every limit", "why_tests_cant": "the number and mix of resting orders, budgets and limits is unbounded", "anchors": ["programs/openbook-v2/src/state/orderbook/book.rs:new_order"]}
{"id": "C49", "title": "A resting order is only pushed out by a better one on a full side", "statement": "Placing an order drops orders of its own side only if they have expired, except for at most one: that one is dropped only when 512 or more orders rest on the side, it is the worst of them (lowest price priority, and among equals the youngest), and its price is strictly worse than the new order's.", "quantifier": "for every book and every order", "why_tests_cant": "needs sides with hundreds of orders of both kinds and clamped pegged prices", "anchors": ["programs/openbook-v2/src/state/orderbook/book.rs:new_order", "programs/openbook-v2/src/state/orderbook/bookside.rs:remove_worst", "programs/openbook-v2/src/state/orderbook/ordertree.rs:is_full"]}
{"id": "C50", "title": "A better order finds room on a full side (finding: false)", "statement": "An order whose price beats the worst order of a full side can always be posted.", "quantifier": "for every book side", "why_tests_cant": "needs a side with 513 orders of which one is pegged", "anchors": ["programs/openbook-v2/src/state/orderbook/book.rs:new_order", "programs/openbook-v2/src/state/orderbook/ordertree.rs:is_full,insert_leaf"]}
{"id": "C51", "title": "Resting orders survive other users' instructions", "statement": "An order resting on the book stays there unchanged through any instruction that does not act for its owner, with exactly these exceptions: a new order of the other side whose limit accepts its price trades with it, and what is not traded keeps its id, place, owner and terms; a new order of the other side finds it expired or beyond its peg limit and removes it; a new order of its own side removes it because it has expired, or because the side is full and the new limit is strictly better. Instructions that neither place nor cancel change no order at all.", "quantifier": "for all markets reachable by any sequence of instructions, all resting orders of both kinds and all instructions not acting for the order's owner, including batches of any length", "why_tests_cant": "Each test runs a handful of instructions against small books; that no instruction in any state removes, reorders, shrinks or re-terms a bystander's order for another reason needs a case for every instruction and every book.", "anchors": ["programs/openbook-v2/src/state/orderbook/book.rs: Orderbook::new_order", "programs/openbook-v2/src/state/orderbook/bookside.rs", "programs/openbook-v2/src/instructions/*.rs"]}
{"id": "C52", "title": "An expired market can always be wound down", "statement": "From every state of an expired, not yet closed market, the market's admins can cancel all orders, deliver all events, pay every balance to token accounts of its owner and collect the fees, all these calls succeeding without any user's signature, after which closing the market succeeds. Hypotheses: the owners and the fee receiver have token accounts of the right mint with room, and no account's open lots or penalty are at the edge of the integer range.", "quantifier": "for all reachable states of an expired market, any number of accounts, orders and waiting events", "why_tests_cant": "It is an existence claim over all states: a test can only wind down the states it happens to set up, and a remainder of one lamport in any counter would keep the market open for ever.", "anchors": ["programs/openbook-v2/src/instructions/close_market.rs: close_market", "programs/openbook-v2/src/instructions/prune_orders.rs: prune_orders", "programs/openbook-v2/src/instructions/settle_funds_expired.rs: settle_funds_expired", "programs/openbook-v2/src/instructions/sweep_fees.rs: sweep_fees", "programs/openbook-v2/src/instructions/consume_events.rs: consume_events", "programs/openbook-v2/src/state/market.rs: Market::is_empty"]}
{"id": "C53", "title": "The terms of a market never change", "statement": "Once created, a market keeps its lot sizes, fees, mints, vaults, oracles, oracle settings and admins; its sequence number, accrued fees, referrer fees and volumes never decrease; and its expiry time is changed by nobody but its closing admin, and only to expire at once.", "quantifier": "for all executions of any length, all instructions, all signers", "why_tests_cant": "A test can check single instructions on single states; it cannot exclude that some sequence of instructions changes the terms under which users have deposited.", "anchors": ["programs/openbook-v2/src/state/market.rs: Market", "programs/openbook-v2/src/instructions/set_market_expired.rs: set_market_expired"]}
{"id": "C54", "title": "Replacing all quotes at once is affordable and leaves no stale quote", "statement": "A call that cancels all of a user's orders and places new ones cuts the new orders down to what the user's wallet and open-orders account can pay, so it is never refused for want of tokens in the wallet, whatever amounts were asked for; and after it succeeds, the account has no order on the book except those whose ids the call returned.", "quantifier": "for all reachable states, all lists of bids and asks of any length, prices and sizes, all order types; with or without cancelling first for the first half", "why_tests_cant": "The amounts asked for by one order depend on what all earlier orders of the call took, matched, paid in fees and gave back by cancelling; a test covers single combinations, and a rounding the wrong way only shows at amounts that exhaust the wallet.", "anchors": ["programs/openbook-v2/src/instructions/cancel_all_and_place_orders.rs: cancel_all_and_place_orders", "programs/openbook-v2/src/state/market.rs: Market::max_base_lots_from_lamports, Market::max_quote_lots_from_lamports", "programs/openbook-v2/src/state/orderbook/book.rs: Orderbook::cancel_all_orders"]}
{"id": "C55", "title": "Every instruction ends", "statement": "Every instruction ends, with success or with an error: the loops that walk through an order tree without a count of their own (inserting, removing, finding the worst or the earliest-expiring order, iterating) always come to an end within as many steps as a side has nodes, on every state that can occur and whatever the instruction's arguments are.", "quantifier": "for all reachable states, all instructions and arguments, all oracle readings", "why_tests_cant": "Whether a walk ends depends on the links left behind by every earlier insertion and removal: a cycle in the node pool appears only after particular sequences of operations, which no finite set of tests exhausts.", "anchors": ["programs/openbook-v2/src/state/orderbook/ordertree.rs: OrderTreeNodes::insert_leaf, OrderTreeNodes::remove_by_key, OrderTreeNodes::leaf_min_max, OrderTreeNodes::find_earliest_expiry", "programs/openbook-v2/src/state/orderbook/ordertree_iterator.rs: OrderTreeIter::find_leftmost_leaf, OrderTreeIter::next", "programs/openbook-v2/src/state/orderbook/bookside_iterator.rs: BookSideIter::next"]}
{"id": "C56", "title": "An order its sender can pay for goes through", "statement": "On a market that is open, whose clock and oracle can be read, an order is accepted if its sender may use the account, the account has a free slot, the sender's wallet and free balance cover the most the order can cost, and no counter, total or the event queue is about to overflow - whatever else is on the book or in the queue, whoever owns it. The only ways to be turned down are: the order asks to abort on a self-trade and the sender has an order resting on the other side; it is fill-or-kill and would have been filled in part; it is pegged and the oracle gives no price or one that puts the order outside the price range; it slides and there is no price left to slide to. The same holds for pegged orders and for orders sent without an open orders account, whose proceeds the vault always holds. Editing an order goes through in the same way: if what is left of the new order, once the old one is cancelled and what already traded is taken off, can be paid for, the edit is accepted or turned down for one of these reasons only.", "quantifier": "for all reachable states, all senders, all order arguments, all oracle readings", "why_tests_cant": "It is the absence of a failure: an unexpected overflow, assertion, missing account or short vault would need a particular book, particular counters or a particular history to show, and every one of the dozens of checked operations on the path has to be ruled out for every state.", "anchors": ["programs/openbook-v2/src/state/orderbook/book.rs: Orderbook::new_order", "programs/openbook-v2/src/instructions/place_order.rs: place_order", "programs/openbook-v2/src/instructions/place_take_order.rs: place_take_order", "programs/openbook-v2/src/lib.rs: place_order, place_order_pegged, place_take_order, edit_order, edit_order_pegged", "programs/openbook-v2/src/instructions/edit_order.rs: edit_order"]}
{"id": "C57", "title": "Markets do not affect one another", "statement": "The program serves any number of markets at once, and the same users, token accounts and mints may appear in many of them. An instruction on one market leaves every other market's book, event queue, accounts and settings as they are, and takes nothing from its vaults. No two markets share a vault. Each market is at any time in a state it could also have reached if it had been the only one, so everything proved of a single market holds of each of many.", "quantifier": "for all numbers of markets, all sequences of instructions on them interleaved in any order with token transfers, and all users", "why_tests_cant": "Tests create one market. An account of one market passed to an instruction of another, a shared authority, or a vault reachable by two markets only shows with the right mix of several markets.", "anchors": ["programs/openbook-v2/src/lib.rs: openbook_v2", "programs/openbook-v2/src/accounts_ix/create_market.rs: CreateMarket", "programs/openbook-v2/src/accounts_ix/place_order.rs: PlaceOrder", "programs/openbook-v2/src/accounts_ix/settle_funds.rs: SettleFunds", "programs/openbook-v2/src/token_utils.rs: token_transfer_signed"]}
{"id": "C58", "title": "The indexer lists exactly an owner's open accounts", "statement": "At any time the open orders indexer of a user lists exactly the open orders accounts this user has in all markets together, each once, never more than 256; a user without an indexer has no account. Opening an account fails only if the indexer is missing or full, its counter is used up, the market is missing or closed, or the name is longer than 32 bytes; the account is then new and empty. An owner can always close an account with nothing left in it - the indexer never stands in the way, not even after the market is closed - and can close the indexer exactly when no account is left. While the indexer stays open no account address is given out twice.", "quantifier": "for all users, all numbers of markets, all sequences of opening and closing accounts and indexers interleaved with any other instructions", "why_tests_cant": "Closing searches the list with an unwrap and reallocates by its length minus one; that neither can fail depends on the list being right after every history of openings and closings over all markets.", "anchors": ["programs/openbook-v2/src/state/open_orders_indexer.rs: OpenOrdersIndexer", "programs/openbook-v2/src/instructions/create_open_orders_account.rs: create_open_orders_account", "programs/openbook-v2/src/instructions/close_open_orders_account.rs: close_open_orders_account", "programs/openbook-v2/src/instructions/create_open_orders_indexer.rs: create_open_orders_indexer", "programs/openbook-v2/src/instructions/close_open_orders_indexer.rs: close_open_orders_indexer"]}
{"id": "C59", "title": "A trade does not depend on who makes it", "statement": "Two orders on the same terms, sent against the same opposing side of the book at the same time, trade the same amounts at the same prices for the same fees, post the same remainder and leave the same orders on the opposing side - whoever sends them, through whichever account or none, whatever the state of the event queue, and whichever makers' accounts are passed along - as long as the senders have no orders of their own there. Through an account, wallet and free balance together change by the same amount whichever of them pays; a direct take order costs exactly the referrer's part of the fee less.", "quantifier": "for all books, orders, market settings, oracle prices, clocks, match limits, senders, accounts, queues and lists of accounts passed along", "why_tests_cant": "A test compares a few senders on one book. That no branch on the sender, the queue or the accounts passed along reaches the matching arithmetic is a statement about pairs of executions.", "anchors": ["programs/openbook-v2/src/state/orderbook/book.rs: Orderbook::new_order", "programs/openbook-v2/src/state/orderbook/book.rs: process_fill_event", "programs/openbook-v2/src/instructions/place_take_order.rs: place_take_order", "programs/openbook-v2/src/instructions/place_order.rs: place_order", "programs/openbook-v2/src/state/open_orders_account.rs: execute_taker"]}
{"id": "C60", "title": "It does not matter in the end which makers' accounts are passed along", "statement": "Whoever places, edits or replaces orders, or takes directly, chooses which makers' accounts to pass along; fills and removals for those are applied at once, the others wait in the event queue. The choice makes no difference: if the same call goes through with two choices, it returns the same order ids, moves the same tokens and leaves the same books, and once the queue has been emptied - by anybody, in any order - the market's counters and every account are the same, except that the account the order was placed through may owe one penalty more or less.", "quantifier": "for all reachable states, placing instructions, and pairs of lists of accounts passed along, and all ways of emptying the queue afterwards", "why_tests_cant": "A test compares one fill applied at once with one consumed later. That the two code paths agree for every mix of fills, removals of expired orders, self trades and evictions, with several events for one account on both paths, is a statement about pairs of executions of any length.", "anchors": ["programs/openbook-v2/src/state/orderbook/book.rs: process_fill_event", "programs/openbook-v2/src/state/orderbook/book.rs: process_out_event", "programs/openbook-v2/src/instructions/consume_events.rs: consume_events", "programs/openbook-v2/src/state/open_orders_account.rs: execute_maker", "programs/openbook-v2/src/instructions/place_order.rs: place_order"]}
{"id": "C61", "title": "An owner can always leave a market with everything they are due", "statement": "Whatever state a market is in, expired or not, the owner of an account can cancel all its orders, have its own waiting events delivered, settle, and close the account: all these calls succeed, and the owner's token accounts receive exactly what was free in the account, what its orders on the book had locked (with the maker fees locked for them), and what the waiting events bring it - no less because of what other users do or leave waiting. Nobody else's cooperation is needed, except the market's consume-events admin if it has one.", "quantifier": "for all reachable states of an open market, accounts and instants, given token accounts of the owner with room for what the vaults hold, and lot counts and penalties within machine range", "why_tests_cant": "A test leaves a market from a few hand-made states. That no mix of orders, fills, evicted and expired orders, pegged orders and roundings leaves a remainder that cannot be taken out, or makes one of the calls fail, is a statement about all reachable states, with any number of orders and events.", "anchors": ["programs/openbook-v2/src/instructions/cancel_all_orders.rs: cancel_all_orders", "programs/openbook-v2/src/instructions/consume_events.rs: consume_events", "programs/openbook-v2/src/instructions/settle_funds.rs: settle_funds", "programs/openbook-v2/src/instructions/close_open_orders_account.rs: close_open_orders_account", "programs/openbook-v2/src/state/open_orders_account.rs: cancel_order", "programs/openbook-v2/src/state/open_orders_account.rs: execute_maker"]}
{"id": "C62", "title": "Nobody else can change what an account is due except by trading with its orders", "statement": "Everything an account is due - free balances, what its resting orders have locked, and what waiting events will bring - changes through other people's instructions only by fills of its resting orders, each at the order's own price (or the oracle price with its offset, within its limit) and before it expired, for no more than the order had left, with the maker fee or rebate for that fill and at most one native unit of quote lost to rounding per filled bid. Dropping its expired, out-of-limit or evicted orders, delivering its events, sweeping fees, settling, expiring the market and everything else others can do leaves it exactly the same; with no order on the book it cannot change at all.", "quantifier": "for all reachable states, accounts, and sequences of instructions of any length and kind that do not act for the account, at any times and oracle prices", "why_tests_cant": "A test compares balances along a few scripted trades. That no sequence of other users' orders, evictions, deliveries, sweeps and settlements ever costs an account something, or fills it at a price it did not agree to, is a statement about all reachable states and all sequences of instructions.", "anchors": ["programs/openbook-v2/src/state/orderbook/book.rs: new_order", "programs/openbook-v2/src/state/orderbook/book.rs: process_fill_event", "programs/openbook-v2/src/state/orderbook/book.rs: process_out_event", "programs/openbook-v2/src/state/open_orders_account.rs: execute_maker", "programs/openbook-v2/src/state/open_orders_account.rs: cancel_order", "programs/openbook-v2/src/instructions/consume_events.rs: consume_events"]}
{"id": "C63", "title": "The emitted events account for every match", "statement": "From the creation of a market on, the events the program emits account for every match: there is one taker announcement per fill, every fill is reported exactly once, when it is delivered to its maker, with the fees that fill carries, and the fills not reported yet are exactly those that wait in the queue. Per taker the order summaries add up to the base and quote of that taker's fills; the market's maker volume and fee counter, and every account's maker and taker volume, grow by exactly what the events say; a single order yields one summary naming its taker, side, base, quote and fee if it traded and none otherwise; consuming reports exactly the fills it delivers, in order, each followed by the maker's position at that point.", "quantifier": "for all markets, all sequences of instructions of any length by anyone at any times and oracle prices, all accounts and sets of takers", "why_tests_cant": "A test compares a handful of emitted events of scripted trades. That no sequence of partial fills, self trades, deferred deliveries and cancelled orders ever loses, repeats or misstates an event is a statement about all executions; indexers rebuild volumes and fees from the events alone.", "anchors": ["programs/openbook-v2/src/logs.rs: FillLog", "programs/openbook-v2/src/logs.rs: TakerSignatureLog", "programs/openbook-v2/src/logs.rs: TotalOrderFillEvent", "programs/openbook-v2/src/logs.rs: OpenOrdersPositionLog", "programs/openbook-v2/src/state/orderbook/book.rs: new_order", "programs/openbook-v2/src/state/orderbook/book.rs: process_fill_event", "programs/openbook-v2/src/state/open_orders_account.rs: execute_maker", "programs/openbook-v2/src/state/open_orders_account.rs: execute_taker", "programs/openbook-v2/src/instructions/consume_events.rs: consume_events"]}
{"id": "C64", "title": "The emitted events state the money that moved", "statement": "Deposit, settlement and sweep events state exactly the token amounts that moved between the vaults and the token accounts of the call (and a deposit that moves nothing emits nothing); a delegate event names the delegate the account then has.", "quantifier": "for all reachable states, signers, accounts, amounts, referrers and orders", "why_tests_cant": "A test looks at the events of a few calls. That event and movement agree for every state an account can be in - leftover locked fees, rebates, partial top-ups, no referrer - needs all reachable states.", "anchors": ["programs/openbook-v2/src/logs.rs: DepositLog", "programs/openbook-v2/src/logs.rs: SettleFundsLog", "programs/openbook-v2/src/logs.rs: SweepFeesLog", "programs/openbook-v2/src/logs.rs: SetDelegateLog", "programs/openbook-v2/src/logs.rs: TotalOrderFillEvent", "programs/openbook-v2/src/instructions/deposit.rs: deposit", "programs/openbook-v2/src/instructions/settle_funds.rs: settle_funds", "programs/openbook-v2/src/instructions/sweep_fees.rs: sweep_fees", "programs/openbook-v2/src/instructions/set_delegate.rs: set_delegate", "programs/openbook-v2/src/instructions/place_take_order.rs: place_take_order", "programs/openbook-v2/src/lib.rs: refill"]}
{"id": "C65", "title": "The fees and positions events state are those charged and held", "statement": "The taker fees stated for the fills of an order add up to the fee of the order; the summary of an order taken directly from a wallet states what left and entered the wallet; the last position event for an account in a call is its position after the call.", "quantifier": "for all reachable states, all sequences of instructions, all takers", "why_tests_cant": "Rounding per fill against rounding per order, the fee a direct take order is not charged, and what happens after the event is emitted show up only for particular amounts, fees and calls; tests with round numbers see agreement.", "anchors": ["programs/openbook-v2/src/logs.rs: FillLog", "programs/openbook-v2/src/logs.rs: TotalOrderFillEvent", "programs/openbook-v2/src/logs.rs: OpenOrdersPositionLog", "programs/openbook-v2/src/state/orderbook/book.rs: new_order", "programs/openbook-v2/src/state/open_orders_account.rs: execute_taker", "programs/openbook-v2/src/state/open_orders_account.rs: execute_maker", "programs/openbook-v2/src/instructions/place_take_order.rs: place_take_order"]}
{"id": "C66", "title": "An account's own calls change what it is due only by deposits, payouts and its trades", "statement": "When the owner or delegate of an account places, edits or cancels orders, deposits, refills or changes the delegate, or its orders are pruned, what the account is due in base and in quote (C61) changes by exactly what entered the vaults in that call, plus for each order sent what its matches bring at the makers' prices less the taker's fee on that order's total. Every such match is on the side of an order sent, at a price that order accepts, and is reported or queued in the call. A match with the account's own order brings nothing; it costs the maker fee its own fixed-price bid had locked, and otherwise at most one native unit of quote per own bid. Settling reduces what is due by exactly what is paid to the owner, whatever a referrer gets.", "quantifier": "for all reachable states, accounts, owner and delegate calls, order batches of any size, times and oracle prices", "why_tests_cant": "Posting, partial matching, expired orders on the way, own orders on both sides, edits and batches combine freely in one call, and locked amounts move between free, locked and queued balances. Tests check balances for a few scripts; that no combination loses or creates anything beyond fees needs all states.", "anchors": ["programs/openbook-v2/src/instructions/place_order.rs: place_order", "programs/openbook-v2/src/instructions/place_multiple_orders.rs: place_multiple_orders", "programs/openbook-v2/src/instructions/edit_order.rs: edit_order", "programs/openbook-v2/src/instructions/cancel_order.rs: cancel_order", "programs/openbook-v2/src/instructions/cancel_all_orders.rs: cancel_all_orders", "programs/openbook-v2/src/instructions/deposit.rs: deposit", "programs/openbook-v2/src/instructions/settle_funds.rs: settle_funds", "programs/openbook-v2/src/state/orderbook/book.rs: new_order", "programs/openbook-v2/src/state/open_orders_account.rs: execute_taker", "programs/openbook-v2/src/state/open_orders_account.rs: execute_maker", "programs/openbook-v2/src/state/open_orders_account.rs: cancel_order"]}
{"id": "C67", "title": "The price for leaving events in the queue is paid once per call, never dodged and never charged twice", "statement": "Each call that sends orders and leaves more events waiting than there were costs 500 lamports: at once if the orders are sent without an account, and otherwise when the account they were sent for is settled. Over the whole life of a market the SOL collected in the market account and the penalties not yet paid are together exactly 500 lamports per such call; an account's unpaid penalties grow only through its own orders and go to zero only by settling; a call takes SOL only from the payer it names and only the amount due; having that amount is all it needs beyond what it needs anyway; and the SOL collected leaves the market account only when the closing admin closes the market.", "quantifier": "for all histories of a market of any length, all instructions, signers, payers, balances and gifts of SOL", "why_tests_cant": "A test sees one order and one settlement. That no sequence of placing, editing, replacing, consuming, cancelling, closing and reopening accounts loses a penalty or charges one twice is a statement about all histories.", "anchors": ["programs/openbook-v2/src/state/market.rs: PENALTY_EVENT_HEAP", "programs/openbook-v2/src/instructions/place_order.rs: place_order", "programs/openbook-v2/src/instructions/cancel_all_and_place_orders.rs: cancel_all_and_place_orders", "programs/openbook-v2/src/instructions/place_take_order.rs: place_take_order", "programs/openbook-v2/src/instructions/settle_funds.rs: settle_funds", "programs/openbook-v2/src/instructions/close_open_orders_account.rs: close_open_orders_account", "programs/openbook-v2/src/accounts_ix/close_market.rs: CloseMarket", "programs/openbook-v2/src/token_utils.rs: system_program_transfer"]}
{"id": "C68", "title": "An account can be closed after its market has been closed", "statement": "When a market has been closed, every account on it is empty and its owner can still close it and get its rent back.", "quantifier": "for all reachable states of a closed market, all accounts and all later executions", "why_tests_cant": "Whether something can keep an account from being closed forever depends on every way in which its fields can be left when the market goes away, and on every instruction that could change them later.", "anchors": ["programs/openbook-v2/src/instructions/close_open_orders_account.rs: close_open_orders_account", "programs/openbook-v2/src/state/open_orders_account.rs: Position::is_empty", "programs/openbook-v2/src/instructions/close_market.rs: close_market", "programs/openbook-v2/src/instructions/settle_funds.rs: settle_funds"]}
{"id": "C69", "title": "Counted in tokens, no order trades worse than its limit or costs more than its maximum", "statement": "An order that does not rest moves exactly its trade: for some number of lots within the order's maximum a buyer's wallet and free balance gain exactly these lots, lose at most the most quote the order may spend with the fee included, and, unless it is a market order, at most the limit price per lot plus the taker fee; a seller's lose exactly these lots and gain at least the limit price per lot less the taker fee. Placing or editing any order, pegged or not, takes from the sender's wallet and free balance at most the most quote (bid) or base (ask) the order may trade and nothing of the other token; placing a list of orders takes at most what its bids together may spend.", "quantifier": "for all reachable states, all senders, arguments, clocks, oracle answers and accounts passed along", "why_tests_cant": "A test fixes one book. The bound has to survive every combination of fills at different prices, rounding of the fee, self trades, expired orders, evictions and payment from either the free balance or the wallet.", "anchors": ["programs/openbook-v2/src/instructions/place_take_order.rs: place_take_order", "programs/openbook-v2/src/instructions/place_order.rs: place_order", "programs/openbook-v2/src/instructions/edit_order.rs: edit_order", "programs/openbook-v2/src/instructions/cancel_all_and_place_orders.rs: cancel_all_and_place_orders", "programs/openbook-v2/src/state/orderbook/book.rs: Orderbook::new_order"]}
{"id": "C70", "title": "Every stored number fits its field", "statement": "In every state the program can get into on chain, every field of every resting order, waiting event, open orders account and of the market's running totals is within the range of the machine type that stores it; moreover order and event quantities and fill prices are positive, the slot an order or event names is one of the 24 of an account, and locked prices, and the base and quote recorded in bids and asks, are never negative.", "quantifier": "for all histories of instructions by anybody, with any arguments of the interface's types, clocks below 2^63 and oracle answers", "why_tests_cant": "A test sees the values of one history. That the sums of 128-bit and 64-bit counters, the times in force, the keys and the sequence numbers never leave their types, although many are computed with wrapping casts, is a statement about every history.", "anchors": ["programs/openbook-v2/src/state/orderbook/nodes.rs: LeafNode", "programs/openbook-v2/src/state/orderbook/heap.rs: FillEvent, OutEvent", "programs/openbook-v2/src/state/open_orders_account.rs: OpenOrdersAccount, Position, OpenOrder", "programs/openbook-v2/src/state/market.rs: Market"]}
{"id": "C71", "title": "The TypeScript client reads the order book as the program does", "statement": "Reading a side of the book with the TypeScript client gives the resting orders in the order and at the prices at which the program would trade them, marked as expired when the program would not trade them; the best order is the first that can be traded; and the depth table gives the best prices with the lots resting at each.", "quantifier": "for all reachable markets, both sides, all cluster times and all depths", "why_tests_cant": "The client walks the tree with its own stack, rebuilds price and sequence number from the id and aggregates levels; a test compares a few small books. Agreement with the program's iterator on every tree shape, and failures such as the one with pegged orders, need all reachable books.", "anchors": ["ts/client/src/accounts/bookSide.ts: items, fixedItems, oraclePeggedItems, best, getL2", "ts/client/src/structs/order.ts: Order", "programs/openbook-v2/src/state/orderbook/bookside_iterator.rs: BookSideIter"]}
{"id": "C72", "title": "The TypeScript client lists exactly an account's open orders", "statement": "Listing the orders of an open orders account with the TypeScript client gives each of its resting orders once, on the right side and with the right id and price, and nothing else, even if slots still wait for their events.", "quantifier": "for all reachable markets and accounts", "why_tests_cant": "Slots stay in use after an order is filled until its event is consumed, and ids are looked up among other users' orders; only the relation between all slots, trees and waiting events in every reachable state excludes a wrong or missing order.", "anchors": ["ts/client/src/accounts/openOrders.ts: items", "ts/client/src/accounts/bookSide.ts: fixedItems, oraclePeggedItems"]}
{"id": "C73", "title": "The balance the TypeScript client shows", "statement": "The balance the TypeScript client shows for an open orders account is what the account is due: free funds, funds locked in orders, and what the waiting events will bring, less fees.", "quantifier": "for all reachable markets and accounts", "why_tests_cant": "It combines four running totals with the waiting events; whether they add up depends on every history of fills, cancellations and fees.", "anchors": ["ts/client/src/accounts/openOrders.ts: getBalanceNative", "ts/client/src/accounts/market.ts: makerFeeFloor"]}
{"id": "C74", "title": "The TypeScript client's helpers for consuming events", "statement": "The events the client reads are exactly the waiting ones, oldest first. If events wait, consuming with the accounts the client suggests makes progress; consuming for one account consumes that account's events.", "quantifier": "for all reachable markets", "why_tests_cant": "Freed slots of the event heap keep their old contents, and the suggested accounts depend on the whole array; which states leave the helper stuck is not visible in tests that fill the heap once.", "anchors": ["ts/client/src/accounts/eventHeap.ts: rawEvents", "ts/client/src/client.ts: getAccountsToConsume, getSlotsToConsume, consumeEventsForAccountIx", "programs/openbook-v2/src/instructions/consume_events.rs: consume_events"]}
{"id": "C75", "title": "The TypeScript client finds the markets", "statement": "Looking for all markets inspects every transaction of the program's event authority once; looking for the markets of two mints finds exactly the market accounts with that base and that quote mint.", "quantifier": "for all lists of transactions, and for all contents of market accounts and pairs of mints", "why_tests_cant": "The number of transactions and the contents of accounts are unbounded; a test with fewer than fifty transactions passes.", "anchors": ["ts/client/src/market.ts: findAllMarkets, findAccountsByMints", "programs/openbook-v2/src/state/market.rs: Market"]}
{"id": "C76", "title": "Acting through the TypeScript client", "statement": "Whoever may act for an open orders account can do so through the TypeScript client: cancelling all orders takes them off the book and pays out the free funds, for the owner and for the delegate; and the accounts the client passes along with an order never make it fail.", "quantifier": "for all reachable markets, accounts, clients and orders", "why_tests_cant": "Which signatures and accounts the client adds is checked against the program's rules for every state and every order type, not for the one wallet of a test.", "anchors": ["ts/client/src/client.ts: cancelOrderByIdIx, cancelAllOrdersIx, settleFundsIx, placeOrderIx", "ts/client/src/accounts/openOrders.ts: placeOrder, cancelAllOrders", "programs/openbook-v2/src/state/orderbook/book.rs: new_order"]}
{"id": "C77", "title": "Cached fetching of accounts", "statement": "However many tasks fetch accounts through the caching fetcher at once, every answer is data that the chain held; no call panics or hangs; at most one request for the same thing is on the way; answers are remembered until the cache is cleared and failures are not; and what is read after clearing the cache is not older than the clearing.", "quantifier": "for all chains, all numbers of tasks, all interleavings of their steps, answers of the node, dropped tasks and clearings of the cache", "why_tests_cant": "Tasks join each other's requests and may be dropped at any await; a test runs one of unboundedly many interleavings.", "anchors": ["lib/client/src/account_fetcher.rs: CachedAccountFetcher, CoalescedAsyncJob, run_coalesced, clear_cache"]}
{"id": "C78", "title": "The Rust client's order sizes", "statement": "The size the Rust client computes for a budget is the largest whose cost, fees included, is within the budget.", "quantifier": "for all reachable markets with any lot sizes and fees, and all budgets", "why_tests_cant": "The error depends on fee rate, lot size and budget; on a market without fees or with lots of one unit, as in a test, the sizes look right.", "anchors": ["lib/client/src/context.rs: max_quote_lots_including_taker_fees, max_quote_lots_including_maker_fees, max_base_lots, max_base_lots_from_usd"]}
{"id": "C79", "title": "Acting through the Rust client", "statement": "Whoever may act for an open orders account can place orders, cancel them, be paid out and consume events through the Rust client.", "quantifier": "for all reachable markets, accounts, clients and orders", "why_tests_cant": "Which signatures and accounts the client adds has to be compared with the program's rules in every state.", "anchors": ["lib/client/src/client.rs: place_order, place_order_pegged, cancel_all_orders, settle_funds, consume_events", "programs/openbook-v2/src/instructions/consume_events.rs: consume_events"]}
{"id": "C80", "title": "Creating open orders accounts through the clients", "statement": "Asking a client for an open orders account gives the account of that name or, if there is none, a new, empty account of the owner; it fails only if the program cannot create one, and touches nothing else.", "quantifier": "for all reachable states of the program with any number of markets and accounts, all owners, names and address derivations without collisions", "why_tests_cant": "The clients compute the next account's number themselves; whether it is the program's depends on every history of creating and closing accounts.", "anchors": ["lib/client/src/client.rs: find_or_create_account, create_open_orders_account", "ts/client/src/client.ts: createOpenOrdersIx", "programs/openbook-v2/src/instructions/create_open_orders_account.rs: create_open_orders_account"]}
{"id": "C81", "title": "Fetching through the account cache of the Rust client", "statement": "After the Rust client fetched an account afresh, or refreshed it until a given slot, its cache answers with data at least as recent as the node's answer or that slot.", "quantifier": "for all histories of updates from the node, all accounts, slots and answers", "why_tests_cant": "Whether the cached write is the one just fetched depends on which slots are on the best chain, that is on the whole history of slot updates, forks included.", "anchors": ["lib/client/src/chain_data_fetcher.rs: fetch_fresh, refresh_account_via_rpc, refresh_accounts_via_rpc_until_slot", "lib/client/src/chain_data.rs: update_from_rpc, account"]}
{"id": "C82", "title": "Decoding the accounts' bytes", "statement": "What the TypeScript client decodes from the bytes of a market's accounts is what the program stored: the orders of a book side, by either of its two decoders, the waiting events, the open orders accounts and the market.", "quantifier": "for all states reached on chain by any sequence of calls, all accounts and discriminators; and for all layouts without hidden gaps and all values within their types", "why_tests_cant": "Two descriptions of the same bytes, one in Rust and one in TypeScript with offsets by hand, have to agree on every field and every value; tests decode a few accounts with small numbers.", "anchors": ["ts/client/src/openbook_v2.ts", "ts/client/src/accounts/bookSide.ts: decodeAccountfromBuffer, toInnerNode, toLeafNode", "ts/client/src/accounts/eventHeap.ts: parsedEvents", "programs/openbook-v2/src/state/orderbook/nodes.rs", "programs/openbook-v2/src/state/orderbook/ordertree.rs", "programs/openbook-v2/src/state/orderbook/bookside.rs", "programs/openbook-v2/src/state/orderbook/heap.rs", "programs/openbook-v2/src/state/open_orders_account.rs", "programs/openbook-v2/src/state/market.rs"]}
{"id": "C83", "title": "Finding one's open orders accounts", "statement": "The clients' searches for an owner's open orders accounts, over all markets or on one, return exactly the accounts the owner has there, each once, and loading them pairs each with its own current state, market and books.", "quantifier": "for all owners, states of the whole program reached by any instructions, and numbers of accounts and markets", "why_tests_cant": "It needs the indexer's list, the accounts' bytes, filters by byte offset and positions in several answers of a node to agree for any history of opening and closing accounts; tests open one or two accounts.", "anchors": ["ts/client/src/client.ts: findAllOpenOrders, findOpenOrdersForMarket, deserializeOpenOrderAccount, deserializeOpenOrdersIndexerAccount", "ts/client/src/accounts/openOrdersIndexer.ts: OpenOrdersIndexer.loadAllOpenOrders", "lib/client/src/gpa.rs: fetch_openbook_accounts", "programs/openbook-v2/src/state/open_orders_indexer.rs: OpenOrdersIndexer"]}
{"id": "C84", "title": "Prices and sizes in whole tokens", "statement": "A price on a tick and a size of whole lots given in tokens to the TypeScript client are sent as exactly that many ticks and lots, other ones are rounded down by less than one, what the client shows for an order is sent back as the same order, and so an order in tokens trades at its price or better.", "quantifier": "for all market terms with up to 15 decimals, all prices, sizes and lot numbers, and all doubles", "why_tests_cant": "Decimal prices are not binary fractions: whether the rounding errors of the multiplications are undone by rounding to native units depends on every bit of price, lot sizes and decimals, and the wrong cases lie scattered among right ones.", "anchors": ["ts/client/src/accounts/market.ts: Market.baseUiToLots, Market.priceUiToLots, Market.baseLotsToUi, Market.priceLotsToUi, tickSize", "ts/client/src/utils/utils.ts: toNative", "ts/client/src/structs/order.ts: Order.price, Order.size", "ts/client/src/accounts/openOrders.ts: OpenOrders.placeOrderIx"]}
{"id": "C85", "title": "A stub oracle says what its owner last said", "statement": "A stub oracle exists from its creation until its owner closes it and states the price of the owner's last call and that call's slot; nobody else can create, change or close it, and a market that reads it takes exactly that price or none, never one older than the market allows.", "quantifier": "for all histories of calls by all owners for all mints, all prices (every double), clocks, markets and oracle settings", "why_tests_cant": "Which call was the last one for an address depends on the whole history of calls by all owners; tests set one price and read it back.", "anchors": ["programs/openbook-v2/src/instructions/stub_oracle_create.rs: stub_oracle_create", "programs/openbook-v2/src/instructions/stub_oracle_set.rs: stub_oracle_set", "programs/openbook-v2/src/instructions/stub_oracle_close.rs: stub_oracle_close", "programs/openbook-v2/src/accounts_ix/stub_oracle_set.rs: StubOracleSet", "programs/openbook-v2/src/state/oracle.rs: StubOracle, oracle_state_unchecked", "programs/openbook-v2/src/state/market.rs: Market::oracle_price"]}
{"id": "C86", "title": "Keeping and winding down a market through the TypeScript client", "statement": "What the program lets somebody do to keep a market running or wind it down, they can do through the TypeScript client: anybody consumes events in order, or those in given slots, on a market without an admin for events, and the admin does where there is one; owners deposit what they can pay; the closing admin of an expired market takes orders off the book and closes the market.", "quantifier": "for all reachable states, callers, sets of signatures, slots, accounts and amounts", "why_tests_cant": "Whether a call goes through depends on the market's admins and on every state the market can be in; the client's tests send a few calls on one market.", "anchors": ["ts/client/src/client.ts: consumeEventsIx, consumeGivenEventsIx, consumeEventsForAccountIx, depositIx, pruneOrdersIx, closeMarketIx", "programs/openbook-v2/src/accounts_ix/consume_events.rs: ConsumeEvents", "programs/openbook-v2/src/accounts_ix/close_market.rs: CloseMarket"]}
{"id": "C87", "title": "The exported conversions of prices and sizes", "statement": "The conversions the TypeScript client exports beside those of its market class turn a price on a tick into that many ticks and a size of whole lots into that many lots, agree with the market class, and give a price in smallest units that is the order's price rounded down.", "quantifier": "for all decimals up to 15, lot sizes, prices and sizes within the precision of doubles", "why_tests_cant": "The results depend on how a double nearest to a decimal is rounded in two multiplications; tests try a handful of prices on one market.", "anchors": ["ts/client/src/market.ts: uiPriceToLots, uiBaseToLots, uiQuoteToLots, priceLotsToNative", "ts/client/src/utils/utils.ts: toNative"]}
{"id": "C88", "title": "Depositing SOL through the TypeScript client", "statement": "On a market whose base token is wrapped SOL an owner with enough SOL can deposit it through the client's function for native SOL; the SOL not deposited comes back and no wrapped account is left over.", "quantifier": "for all reachable states, accounts, amounts, lamports and generated keys", "why_tests_cant": "It is a transaction of four instructions over two programs; a test with an owner who happens to hold wrapped SOL passes.", "anchors": ["ts/client/src/client.ts: depositNativeIx", "programs/openbook-v2/src/accounts_ix/deposit.rs: Deposit"]}
{"id": "C89", "title": "Opening an account through the TypeScript client", "statement": "Anybody can open an account on an open market through the client, with or without an indexer, up to 256 at a time; the address the client returns is always that of the new, empty account, even if what the client read is out of date: then nothing is opened.", "quantifier": "for all reachable states of all markets and indexers, owners, markets, delegates, names and indexers as read", "why_tests_cant": "The client derives the address from a counter it read earlier; the histories of opening and closing and the calls in between are unbounded, and tests open accounts one after another.", "anchors": ["ts/client/src/client.ts: createOpenOrdersIx, findOpenOrderAtIndex, createOpenOrdersIndexerIx", "programs/openbook-v2/src/accounts_ix/create_open_orders_account.rs: CreateOpenOrdersAccount"]}
{"id": "C90", "title": "Which markets can be created", "statement": "Anybody can create a market exactly on fair terms: a taker fee between 0 and 100 percent, a maker fee of at most 100 percent or a rebate no larger than the taker fee, positive lot sizes, two different mints, an expiry in the future or none, and a second oracle only beside a different first one. The new market has these terms, an empty book, queue and vaults, and nothing else on chain changes.", "quantifier": "for all states, numbers of markets, terms and times", "why_tests_cant": "The terms are sixteen numbers and addresses with dependent bounds; tests create markets on usual terms.", "anchors": ["programs/openbook-v2/src/instructions/create_market.rs: create_market", "programs/openbook-v2/src/accounts_ix/create_market.rs: CreateMarket", "ts/client/src/client.ts: createMarketIx"]}
{"id": "C91", "title": "A closed market is over, and a market created again at its address starts with nothing owed", "statement": "Once a market is closed there are no orders and no events on it, nobody has or is owed anything, and this stays so: no account appears on it and no balance or order of a remaining account changes. If another market is created at the same address, the accounts left over belong to it, but with nothing in them, and its vaults are new ones: nothing of the old market can be claimed from the new one.", "quantifier": "for all executions before and after closing, all numbers of accounts and markets, and all terms of the second market", "why_tests_cant": "A balance left behind in any account by any history would be a claim on the vaults of the second market; tests close a market after one short history and never create it again.", "anchors": ["programs/openbook-v2/src/instructions/close_market.rs: close_market", "programs/openbook-v2/src/accounts_ix/create_market.rs: CreateMarket", "programs/openbook-v2/src/state/market.rs: is_empty"]}
