# Formal model of openbook-v2 in Rocq

## Scope

The on-chain program under `/repo/programs/openbook-v2/src` and the book, quote and cache
parts of the client library under `/repo/lib/client/src`, and the TypeScript client's reading of
accounts and choice of accounts and signers (`/repo/ts/client/src`), at the pinned commit. Everything is
proved for all inputs, all reachable states and all executions of any length.

## Modelling rules

* Numbers are `Z`. The release profile of the workspace sets `overflow-checks = true`
  (`/repo/Cargo.toml`), so `+ - *` on i64/u64/u128/i128 are modelled by checked
  operations that return `Err Panic` outside the type's range. `as` casts wrap explicitly.
* `Result` and panics are the `res` type (`Ok a | Err e`); `Panic` is one of the errors.
  A failing instruction leaves the state unchanged (Solana transactions are atomic).
* `&mut` parameters become returned values. Loops become structural recursion on the list
  iterated over, or recursion on fuel that returns `Err OutOfFuel`; C55 shows that
  no instruction ever returns this error.
* Public keys are `Z`; 0 is the default key. Arrays are total functions on `Z` with explicit
  bounds checks where Rust would panic (node arena, event heap), or lists (24 order slots).
* Clock and oracle price are inputs of each instruction: any value is allowed at any time,
  so a theorem about executions covers every behaviour of clock and oracles.
* The whole program is one state machine: `exec : env -> sys -> instr -> res (sys * output)`
  in `Instructions.v`; `reachable` (in `SpecSystem.v`) is the closure of `create_market`
  under `exec`, including what anybody does through the token program outside of this one:
  transfers, mints, burns, and opening, handing over or closing token accounts.
* `Program.v` puts any number of these markets over the same token accounts, together with the
  open orders indexers: `pexec`, `preachable`. C57 shows that each market in it is `reachable`,
  so the theorems about one market hold of each of many.

## Layout (`rocq/theories`)

* Model, no proofs: `Base` (results, integers), `Nodes` (nodes.rs), `OrderTree`
  (ordertree.rs, ordertree_iterator.rs), `BookSide` (bookside.rs, bookside_iterator.rs), `Heap`
  (heap.rs), `Market` (market.rs), `OpenOrders` (open_orders_account.rs), `Order` (order.rs,
  order_type.rs), `Book` (book.rs), `Instructions` (instructions/, accounts_ix/, lib.rs,
  token_utils.rs), `Logs` (logs.rs and every `emit`), `Oracle` (oracle.rs, raydium_internal.rs), `Client` (client/src/book.rs and
  `quote` of jup.rs), `Program` (many markets, open_orders_indexer.rs), `ChainData` (client/src/chain_data.rs), `Ts` (ts/client/src: bookSide.ts, order.ts, eventHeap.ts,
  openOrders.ts, market.ts and parts of client.ts), `Fetch` (client/src/account_fetcher.rs), `RClient`
  (client/src/context.rs, client.rs, chain_data_fetcher.rs), `Bytes` (layouts of the accounts and
  the TypeScript decoders), `Find` (ts market.ts),
  `FindOo` (ts client.ts, openOrdersIndexer.ts and client/src/gpa.rs: finding open orders accounts), `Units` (ts accounts/market.ts: tokens to lots and back), `UnitsMkt` (the same in ts market.ts),
  `Stub` (the instructions of the stub oracle),
  `TsKeep` (ts client.ts: consuming, depositing, pruning, closing), `TsNative` (depositing SOL),
  `TsOpen` (opening accounts).
* Specifications independent of the model's helpers: `Spec*`.
* The theorems: `Props*`, nothing else in these files but concrete cases.
* Proofs: everything else. The main chain is `TreeRep`/`TreeOps`/`TreeIter` (arena = tree),
  `BookSideFacts`/`BookSideOrder`, `MatchFacts`/`MatchBook`/`OrderFacts`/`PlaceFacts` (one
  order), `Steps`/`StepFacts` (every instruction is a sequence of small steps), `Ledger*`
  (the accounting invariant over small steps), `SystemFacts`, `Solvency` (over executions).

## Trusted base

* Coq 8.16.1's kernel, including its `vm_compute` conversion (used for concrete cases and
  refutations), and the `coqc` front end that reads the statements.
* Axioms. All theorems except those of C84, C87 and six others are closed under the global context.
  They (C84, C87, four of C41, two of C42; marked (R) below) speak about real numbers and use the standard library's
  `ClassicalDedekindReals.sig_forall_dec`, `ClassicalDedekindReals.sig_not_dec`,
  `FunctionalExtensionality.functional_extensionality_dep` and `Classical_Prop.classic`.
  A whole-environment listing (`coqchk -o`, vcheck) also shows the opaque module items
  `Coq.Reals.Rdefinitions.RbaseSymbolsImpl.*`, `Coq.Reals.Rdefinitions.RinvImpl.*` and
  `Coq.ssr.ssrunder.Under_rel.*`: these come from loading the standard library's `Reals` and
  `ssreflect` (through Flocq); they are fields of modules sealed by a module type. No axiom is
  added here and none of another library is used.
* The reading of the Rust text: that each definition does what the lines it cites do. The
  comments beside the definitions give file and lines, and say where they simplify.
* What is modelled of the environment: SPL token transfers (owner, mint, amount, failure when
  the amount is missing, overflow), atomic transactions, the `fixed` crate's I80F48
  operations used, IEEE 754 binary64 without NaN payloads, JavaScript's `toFixed` and big.js with
  its default settings.

## What is not modelled

* SOL other than the payments of `PENALTY_EVENT_HEAP` lamports and the closing of the market
  account (`Sol.v`): rent, transaction fees and the SOL in other accounts.
* The `MarketMetaDataLog` event (it repeats the arguments of `create_market`; all other events are
  modelled in `Logs`), encoding of events, the values of discriminators, PDA derivation.
  The zero-copy layouts are modelled in `Bytes`, where bytes that the program never writes are
  zero; the instructions work on the structs, not on bytes. Accounts pinned to the market by `has_one` are not
  arguments.
* Executions after another market is created at the address of a closed one (which takes that
  address's private key): C91 proves what its first state is, but in the many-market machine an
  address is used for one market only. Open orders account
  addresses are arbitrary in the single-market machine and an injective function of owner and
  number in the many-market machine.
* Account parsing of oracle accounts (Pyth, Switchboard, Raydium): their fields are inputs.
* The client library's network code (sending and confirming of transactions in `client.rs`,
  `gpa.rs`, `*_source.rs`, address lookup tables), and the Jupiter interface around `quote`. Of
  `client.rs` the instructions that are built and the choice of account are modelled; of
  `account_fetcher.rs` and `chain_data_fetcher.rs` everything but decoding. An await of the
  `async` code is a step of the machine in `Fetch.v`, a lock held between awaits is one step.
* The rest of the TypeScript client: decoding of
  events in transactions, creation of markets, subscriptions, RPC answers.
* The matching loop's iterator is consumed lazily in the code and collected first in the model
  (`iter_all`); the book side does not change while the loop runs, so the items are the same.
* Token delegates, freezing, closing and native SOL wrapping of token accounts (but for the one
  account of `TsNative`).

## Plan and status per property

Axioms are those `Print Assumptions` lists; "closed" means none.

* **C01 Order ids encode price-time priority.** (proved) Keys as `Z`; `new_node_key` modelled bit for bit. Arithmetic proof by div/mod decomposition. Theorems: `C01_limit_ids_order`, `C01_pegged_ids_order`. All closed.
* **C02 Price encoding round-trips.** (proved) `price_data` codecs modelled with explicit mod 2^64. Round-trip and monotonicity by lia. Theorems: `C02_limit_price_round_trip`, `C02_low_price_rejected`, `C02_peg_offset_round_trip`, `C02_peg_data_monotone`. All closed.
* **C03 Order tree behaves as a sorted map.** (proved) Arena model of the critbit tree (`nodes : Z -> AnyNode`). Representation relation from the arena to an inductive tree with disjoint handles; operations proved to implement tree operations, tree operations to implement a sorted association list; induction over operation lists. Theorems: `C03_tree_is_sorted_map`. All closed.
* **C04 Node pool never leaks or double-allocates.** (proved) Same representation invariant: handles of both trees plus free list are a permutation of `0..bump-1`. Theorems: `C04_pool_partition`, `C04_insert_succeeds`. All closed. A failed operation returns no new state in the model: the transaction is void.
* **C05 Expired orders are found when there are any.** (proved) Invariant: `child_earliest_expiry` of every inner node is the minimum over the subtree. Theorems: `C05_expired_found`. All closed.
* **C06 Tree iteration is sorted and complete.** (proved) Stack iterator modelled step by step, proved to enumerate the in-order list. Theorems: `C06_tree_listing`. All closed.
* **C07 Merged book iteration respects price-time priority.** (proved) Merge iterator modelled; proved to produce a permutation sorted by the comparison on (price, seq) when no pegged head is out of range. Theorems: `C07_iteration_priority`. All closed.
* **C08 Merged iteration misses no matchable order (finding: false).** (partial) Refuted: concrete witness (pegged order out of range, next one found, third one lost). The exact listing is proved by splitting the pegged orders, best first, into those out of range ahead, in range and behind, and following the skip loop on lists (IterFacts). Theorems: `C08_iteration_misses_none_refuted`, `C08_iteration_partial`, `C08_pegged_listed_partial`, `C08_misses_one_partial`. All closed. The full claim is false (finding F1): C08_iteration_misses_none_refuted gives a reachable book side whose iteration loses a live, in-range order. For every oracle price, C08_iteration_partial proves what is never lost or reordered, C08_pegged_listed_partial says exactly which pegged orders are listed, and C08_misses_one_partial that at most one pegged order in range is lost, only behind a better one out of range.
* **C09 A pegged order never trades beyond its peg limit or out of range.** (proved) Direct case analysis on `oracle_pegged_price`. Theorems: `C09_offered_price`. All closed.
* **C10 Event heap is a FIFO queue with deletion by slot.** (proved) Array model of both linked lists; representation relation to a list of (slot, event); induction over operation lists. Theorems: `C10_heap_is_queue`. All closed.
* **C11 Events keep their slot until removed.** (proved) Same relation as C10. Theorems: `C11_slot_stable`, `C11_empty_slot`. All closed.
* **C12 No fill is worse than the order's limit price.** (proved) Invariant of the matching loop over the list of fills emitted. Theorems: `C12_calls_are_sound`, `C12_fills_within_limit`, `C12_peg_limit_refuted`. All closed. C12_peg_limit_refuted records that the limit of a pegged order while matching is its current price, not its peg limit (finding F14).
* **C13 A buy never costs more than the stated maximum.** (proved) Loop invariant plus rounding lemmas. Theorems: `C13_within_budget`. All closed.
* **C14 Better orders are filled first.** (partial) Loop invariant: fills follow the iteration list. Theorems: `C14_better_first_bids`, `C14_better_first_refuted`, `C14_better_first_partial`. All closed. Proved in full for bids (C14_better_first_bids). False for asks limited by quote (finding F13, C14_better_first_refuted); C14_better_first_partial gives the exact exception.
* **C15 Order types do what they say.** (proved) Case analysis on `new_order` result; loop invariant. Theorems: `C15_take_only`, `C15_post_only`, `C15_posted_price`. All closed.
* **C16 Self-trade settings are honoured.** (proved) Loop invariant on fills with maker = taker. Theorems: `C16_self_trades`. All closed.
* **C17 Match limit and drop limit are respected.** (proved) Loop invariant counting fills and drops. Theorems: `C17_limits`. All closed.
* **C18 Posting never crosses the book.** (partial) Loop exit analysis; the items left after the loop are not within the limit. Theorems: `C18_posting_never_crosses_refuted_bid`, `C18_posting_never_crosses_refuted_ask`, `C18_posting_never_crosses_partial`. All closed. False in full (findings F12 and F13): see the two refutations. C18_posting_never_crosses_partial holds when the quote budget covers the base quantity or the order is post-only.
* **C19 Fees are exact and bounded.** (proved) Arithmetic lemmas on Z.div; induction over the list of fills. Theorems: `C19_taker_fee`, `C19_maker_fee`, `C19_locked_fee`, `C19_order_fees`. All closed.
* **C20 Base tokens are conserved.** (proved) State machine of instructions over a whole-market state; invariant by induction over the history. Theorems: `C20_base_conserved`. All closed.
* **C21 Quote tokens are conserved.** (proved) As C20. Theorems: `C21_quote_conserved`. All closed.
* **C22 The vaults always cover what users can withdraw.** (proved) As C20 with token accounts modelled; uses C24 to bound free balances. Theorems: `C22_vaults_cover`, `C22_settling_works`. All closed.
* **C23 Referrer rebate and volume totals match the accounts.** (proved) As C20. Theorems: `C23_totals_match`. All closed.
* **C24 Every resting order is backed by its owner's account.** (proved) Central invariant of the state machine. Theorems: `C24_orders_backed`. All closed.
* **C25 No event can get stuck.** (proved) No-failure theorem for `execute_maker`/`cancel_order` under the invariant of C24. Theorems: `C25_drain_any_order`, `C25_consume_works`, `C25_consume_given_works`. All closed.
* **C26 Cancelling refunds exactly what was locked.** (proved) Result of `cancel_order` under the invariant. Theorems: `C26_cancel_works`, `C26_cancel_all_works`, `C26_cancel_client_works`, `C26_prune_works`. All closed. cancel_order by id assumes fewer than 2^63 orders were ever numbered, cancel_all fewer than 2^63 lots in the account's orders (beyond these the code can pick an order of the other side, or panic).
* **C27 Events are applied exactly once.** (proved) Model of `consume_events` against a one-line specification on the abstract queue. Theorems: `C27_applied_once`. All closed. See also C25_consume_works and C25_consume_given_works, which say exactly which events a call applies.
* **C28 The order of consuming events does not matter.** (proved) Commutation of event effects under the invariant. Theorems: `C28_order_irrelevant`. All closed.
* **C29 Only the owner or delegate controls an account.** (proved) Case analysis on the step function with signers; frame property. Theorems: `C29_signed`, `C29_others_only_trade`, `C29_identity`. All closed.
* **C30 A delegate cannot withdraw to itself.** (proved) Case analysis on settle constraints. Theorems: `C30_destinations`. All closed.
* **C31 Settling pays out exactly the free balances.** (proved) Result of `settle_funds`. Theorems: `C31_settlement`, `C31_second_pays_nothing`. All closed.
* **C32 An expired market only winds down.** (proved) Induction over histories with non-decreasing clock. Theorems: `C32_stays_expired`, `C32_only_winds_down`. All closed. That winding down remains possible on an expired market is C22_settling_works, C25_drain_any_order and C26_prune_works.
* **C33 A market can be closed only when nobody is owed anything.** (proved) From C20/C21 and C24. Theorems: `C33_close_market`. All closed.
* **C34 An account can be closed only when nothing refers to it.** (proved) From C24. Theorems: `C34_close_account`. All closed.
* **C35 Order ids are never reused.** (proved) Invariant on `seq_num`; induction over histories. Theorems: `C35_ids_distinct`, `C35_new_id_fresh`. All closed.
* **C36 Editing an order replaces it (finding: false).** (partial) Refuted by a concrete execution; the partial theorems describe exactly what every successful edit does (case analysis on `exec`). Theorems: `C36_edit_replaces_refuted`, `C36_edit_partial`, `C36_edit_pegged_partial`. All closed. The full claim is false (finding F2): C36_edit_replaces_refuted. The partial theorems give the exact outcome of every successful edit.
* **C37 Self trades are free of fees (finding: false).** (partial) Refuted by a concrete execution; positive statement for the fee charged at match time. Theorems: `C37_self_trades_free_refuted`, `C37_self_fill_partial`. All closed. The full claim is false (finding F3): C37_self_trades_free_refuted. C37_self_fill_partial: no fee or rebate is charged on the self fill; what is missing is the release of the maker fee locked for a fixed-price bid. The taker's side is C16_self_trades and C19_order_fees.
* **C38 Accrued fees equal fees collected (finding: false).** (partial) Refuted by a concrete execution; exact balance by induction over histories without direct take orders, and a bound for one take order. Theorems: `C38_fees_collected_refuted`, `C38_fees_collected_partial`, `C38_take_partial`. All closed. The full claim is false (finding F4): C38_fees_collected_refuted. C38_fees_collected_partial is an exact balance for all histories without direct take orders; C38_take_partial bounds the effect of those.
* **C39 Orders expire no later than requested.** (proved) Arithmetic on `tif_from_expiry`, `is_expired`. Theorems: `C39_expiry`, `C39_order_expiry`, `C39_expired_places_nothing`. All closed.
* **C40 Refill deposits only the shortfall.** (proved) Model of `refill`/`deposit`. Theorems: `C40_deposit_goes_through`, `C40_refill_goes_through`, `C40_refill`, `C40_deposit`. All closed.
* **C41 Stale or uncertain oracle prices are never used.** (partial) All of `oracle.rs` modelled with exact binary64 (`SpecFloat`) and I80F48; the confidence test is related to real numbers through Flocq's correctness theorems; staleness by case analysis. Theorems: `C41_no_oracle`, `C41_fresh`, `C41_confident_partial` (R), `C41_pyth_confident` (R), `C41_pair_confident_partial` (R), `C41_nan_refuted`, `C41_zero_price_refuted` (R), `C41_instructions`, `C41_pegs_rest`, `C41_peg_needs_price`. Those marked (R) use the real-number axioms listed above, the others are closed. Staleness and the absence of a price are proved in full, and the confidence bound in full for Pyth. For oracles reporting doubles the bound is proved for finite numbers (and a first price other than zero in a pair); outside that it is false (findings F15 and F17: C41_nan_refuted, C41_zero_price_refuted). C41_pegs_rest and C41_peg_needs_price state the effect on instructions.
* **C42 Price conversion to lots is exact up to one lot.** (proved) `I80F48` as integers scaled by 2^48 with the `fixed` crate's rounding; binary64 rounding errors bounded through Flocq. Theorems: `C42_no_panic`, `C42_exact`, `C42_roundtrip`, `C42_price_accurate` (R), `C42_pair_accurate` (R). Those marked (R) use the real-number axioms listed above, the others are closed. Beyond the integer conversion, C42_price_accurate and C42_pair_accurate bound the rounding of the price taken from the oracles in doubles and I80F48.
* **C43 The client's quote equals the executed trade.** (proved) Model of `iterate_book` compared with the loop of `new_order` on the same item list. Theorems: `C43_quote_is_execution`, `C43_accounts`, `C43_crank_accounts`. All closed. For market orders sent with place_take_order and the match limit 45 the client assumes. A quote exists also where the execution fails for other reasons (funds, penalty payer).
* **C44 A swap quote never consumes more than the input (finding: false).** (partial) Refuted by concrete evaluations of `quote`; the exact relation with execution by the loop correspondence of C43. Theorems: `C44_input_refuted`, `C44_input_partial`, `C44_fee_refuted`, `C44_expired_refuted`, `C44_quote_of_take_partial`. All closed. False in full (findings F7, F8): C44_input_refuted, C44_fee_refuted, C44_expired_refuted. C44_input_partial bounds the input by amount times lot size; C44_quote_of_take_partial gives the exact relation between quote and execution when no opposing order expires.
* **C45 Account cache returns the newest live write.** (partial) Model of `ChainData` with association lists; invariant by induction over update sequences; six refutations by concrete sequences. Theorems: `C45_answer_partial`, `C45_newest_on_best_chain_partial`, `C45_snapshot`, `C45_update_returns`, `C45_update_loops_refuted`, `C45_late_fork_refuted`, `C45_late_slot_refuted`, `C45_rooted_head_refuted`, `C45_rpc_parent_refuted`, `C45_overwrite_refuted`. All closed. Full statement is false (refuted: late writes for abandoned forks, slots announced after their child, slots first reported as rooted, parents invented for RPC answers, cyclic parents loop, same-slot writes are not overwritten). Proved for every orderly sequence of notifications (exactly the newest write on the best chain), and for all sequences above the newest rooted slot; snapshot agrees; updates return when parents have smaller numbers.
* **C46 A committed or failed instruction is all-or-nothing.** (not applicable) Not a property of the program text: the Solana runtime discards writes of failed transactions. In the model `step` returns the old state on error by definition. Atomicity of transactions is provided by the Solana runtime, which is not in the repository; the model takes it as given.
* **C47 Tokens leave only the signer's accounts or the market's vaults.** (proved) Case analysis over `exec`: a token account loses tokens only if it is a vault or its owner signed. Theorems: `C47_tokens_guarded`, `C47_only_own_reshaped`. All closed.
* **C48 Matching does not stop early.** (proved) Loop exit analysis of `match_loop`: which items can be left untouched, and why. Theorems: `C48_takes_all`. All closed.
* **C49 A resting order is only pushed out by a better one on a full side.** (proved) Case analysis of `post_order`: which order may be dropped from a full side. Theorems: `C49_room`. All closed.
* **C50 A better order finds room on a full side (finding: false).** (partial) Counting nodes of the arena (C04's partition); refuted in one corner case. Theorems: `C50_room_found_refuted`, `C50_room_found_partial`. All closed. The full claim is false (finding F11): C50_room_found_refuted. C50_room_found_partial: on every side, once the worst order was dropped there is room, except in exactly that case.
* **C51 Resting orders survive other users' instructions.** (proved) Small-step decomposition of every instruction (`Steps.v`) and an invariant per step: an order stays unless one of the listed causes occurs. Theorems: `C51_orders_persist`, `C51_others_leave_the_book`. All closed.
* **C52 An expired market can always be wound down.** (proved) Constructive: explicit sequence of admin instructions, each proved to succeed by the liveness theorems (C22, C25, C26) and the ledger invariant. Theorems: `C52_market_can_be_wound_down`, `C52_no_fees_no_locks`. All closed.
* **C53 The terms of a market never change.** (proved) Small-step decomposition; every step keeps the configuration. Theorems: `C53_terms_never_change`, `C53_only_admin_expires`. All closed.
* **C54 Replacing all quotes at once is affordable and leaves no stale quote.** (proved) Loop invariant `covered`: amounts asked for so far are covered by wallet plus free balance; book-content invariant over the placements of the call. Theorems: `C54_refresh_affordable`, `C54_refresh_replaces`. All closed.
* **C55 Every instruction ends.** (proved) Every bounded recursion of the model is shown not to run out on the states `exec` meets it in. Theorems: `C55_walks_end`. All closed.
* **C56 An order its sender can pay for goes through.** (proved) Loop invariant `ready` (what a running match still needs to succeed) over `match_loop`, built on the ledger invariant of C20: each checked operation of matching, settling, posting, locking funds and transferring tokens is shown to stay in range. Edits: the cancelled orders' lots are bounded by the account's counters and cancelling keeps the conditions on the market (`cancelled_lots`, `trading_kept`), so the placing that follows is covered by the theorem for orders. Theorems: `C56_order_goes_through`, `C56_plain_order_succeeds`, `C56_pegged_goes_through`, `C56_take_goes_through`, `C56_edit_goes_through`, `C56_edit_pegged_goes_through`. All closed.
* **C57 Markets do not affect one another.** (proved) Invariant over executions of the many-market machine `pexec` (`Program.v`): authorities differ, every market is `reachable`; an instruction on one market is, for another, a sequence of token actions not signed by its authority (`exec_tpath`, `outside`), which the single-market machine already allows. Theorems: `C57_each_market_alone`, `C57_others_untouched`, `C57_vaults_apart`. All closed.
* **C58 The indexer lists exactly an owner's open accounts.** (proved) Invariant `xok` over the table of all accounts by owner and number (`view`) and the indexers; every instruction other than opening and closing accounts keeps owners and numbers (`exec_ids`). Addresses are any injective function of owner and number. Finding F23: `C58_reuse_after_closing`. Theorems: `C58_indexers_right`, `C58_opens`, `C58_opened`, `C58_closes`, `C58_indexer_closes`, `C58_no_reuse`, `C58_reuse_after_closing`. All closed.
* **C59 A trade does not depend on who makes it.** (proved) Relational: two runs of the matching loop over the same items from states that agree on everything but the world and the count of fills applied at once (`sim`) have the same happenings (`trace_same`); the settlement and the remainder are functions of those (`settle_same`, `same_trade`). The wallets and free balances follow by taking the instructions apart (`take_money`, `place_money`). `C59_own_orders` shows why the senders' own orders are excluded. Theorems: `C59_same_trade`, `C59_direct`, `C59_through_accounts`, `C59_direct_or_through`. All closed.
* **C60 It does not matter in the end which makers' accounts are passed along.** (proved) Relational: two worlds are `even` when books agree and every account and the market would be the same once all waiting events were delivered (`fate`, `takings`); the sender's own account must agree outright. One event keeps `even` whether it is applied at once or queued on either side (`even_step`: deliveries to one account commute because final events never share a slot). The matching loop and posting are sequences of such events with equal contents (`trace_steps`, `runs_same`, `post_run`), so a whole placement keeps `even` (`new_order_even`), and so do the six placing instructions (`exec_level`). `C60_same_end` then empties the queue by `consumed_deliver` (C28). Theorems: `C60_same_end`, `C60_same_book`. All closed.
* **C61 An owner can always leave a market with everything they are due.** (proved) `base_due` and `quote_due` (SpecExit) add to the free balances what every order and waiting event of the account is worth to it. Cancelling all orders succeeds and keeps them (`taken_all_due`), delivering one of the account's events succeeds alone and keeps them (`delivered_due`, from C28's single delivery), so after draining its own events (`drain_own`) the free balances are all that is due, the counters of open lots are 0 by C24, settling is possible (C29) and pays them, and the emptied account closes (`owner_leaves`). Theorems: `C61_owner_can_leave`. All closed.
* **C62 Nobody else can change what an account is due except by trading with its orders.** (proved) `traded` (SpecWorth) says by which fills the due amounts of C61 changed. `due_fate` shows that what is due is the free balance the account will have once all its events are delivered (its fate, C60) plus what its orders lock; a drop moves value from orders to fate (`drop_tracked`), a fill changes the sum by its proceeds up to the rounding of fees (`fill_tracked`), delivering changes nothing (`consume_tracked`). Placing an order is a run of such steps (`new_order_tracked`); `wstep_tracked` covers the other instructions and `others_tracked` any number of them. Theorems: `C62_others_only_trade`, `C62_nothing_at_risk`. All closed.
* **C63 The emitted events account for every match.** (proved) `exec_logs` (Logs) is the list of events a successful call emits; the matching loop is written once more with its events (`match_loop_l`), and `match_loop_erase` shows that forgetting them gives the loop of Book.v. `emitted` (SpecLogs) collects the events since creation. `tallied` says for one step which fills were reported, which matched, and what that did to counters and accounts; `order_tallied` proves it for placing an order, `exec_tally` for every instruction, `emitted_accounted` for executions by induction. `exec_report` is the statement for single orders, `consume_reported` for consuming. Theorems: `C63_every_match_reported`, `C63_account_volumes`, `C63_order`, `C63_consumed`. All closed.
* **C64 The emitted events state the money that moved.** (proved) The events of these calls are compared with `deposited`, `settlement` (C29-C31) and the token transfers of the call. Theorems: `C64_deposit`, `C64_settle`, `C64_sweep`, `C64_delegate`. All closed.
* **C65 The fees and positions events state are those charged and held.** (partial) `fees_stated` uses that rounding up is subadditive and off by less than one per summand (`fee_up_sub`, `fee_up_super`); `take_wallets` combines `order_report` (C63) with what a direct take moves (C59). The refutations are concrete runs. Theorems: `C65_taker_fees_partial`, `C65_taker_fees_refuted`, `C65_positions_refuted`, `C65_direct_take_partial`, `C65_direct_take_refuted`. All closed. All three parts are false (C65_taker_fees_refuted, C65_direct_take_refuted, C65_positions_refuted). Proved instead: the stated fees are never below the order's fee and above by at most one unit per fill (C65_taker_fees_partial); the summary of a direct take states the base that moved, and the quote that moved is the quote traded and the makers' rebates, without the rest of the stated fee (C65_direct_take_partial).
* **C66 An account's own calls change what it is due only by deposits, payouts and its trades.** (proved) `valued` (OwnFacts) tracks free balances after delivery of all waiting events plus what orders on the book lock, for the account that acts. `new_order_valued` proves it for placing one order, following the matches, dropped orders, posting and cancelled leftovers one by one; the matches are tied to reports and queue through `tallied` (C63). `own_run` composes orders of a call; `exec_own` covers all instructions and the vault balances (`backed`), `own_carried` converts to `base_due`/`quote_due`. Theorems: `C66_own_instructions`, `C66_settling`. All closed.
* **C67 The price for leaving events in the queue is paid once per call, never dodged and never charged twice.** (proved) `Sol.v` adds lamports to the execution of an instruction. `booked` (SolFacts) says which penalty counter changes by how much; it is proved through matching, posting, dropping, cancelling and delivering (`calm`: no counter changes) and then per instruction (`exec_charged`); `penalties_add_up` is induction over histories. Theorems: `C67_penalties_add_up`, `C67_counters`, `C67_who_pays`, `C67_enough`, `C67_closing`. All closed. Rent is not modelled.
* **C68 An account can be closed after its market has been closed.** (partial) `closed_empty`: induction over executions; closing needs zero totals, an empty book and queue, so by conservation every account is empty, and afterwards only closing and delegating touch accounts. `stuck`: no instruction that works on a closed market lowers a penalty counter. Counterexample by computation on a reachable state. Theorems: `C68_closing_partial`, `C68_stuck`, `C68_refuted`. All closed. Proved: the account can be closed exactly if its penalties are paid (C68_closing_partial). Refuted in full: one order that drops an expired order and trades nothing leaves an account with a penalty and nothing else; closing the market does not look at it, settling needs the market, and so the account can never be closed (C68_refuted, C68_stuck; finding F27).
* **C69 Counted in tokens, no order trades worse than its limit or costs more than its maximum.** (proved) The fills of one call are within the limit (C13's lemma), so their sum is bounded by lots times limit; the fee rounds up and is monotone, and so is the amount less the fee (`net_mono`). `take_money` and `place_money` (C59) turn the amounts into changes of wallets and free balances; for resting orders `new_order_richer` (free balances never shrink during matching), `within_budget` (C12's lemma) and the payment rule give the bound. Theorems: `C69_direct`, `C69_through`, `C69_budget`, `C69_list`. All closed. The asks of a list of orders are only bounded by what the sender holds: the interface gives them no base maximum.
* **C70 Every stored number fits its field.** (proved) `run_on_chain` is `reachable` with arguments of machine size (the model checks the other argument types itself). The ledger invariant bounds most fields; `fine` (FitFacts.v) adds times, ids, keys, addresses, the event queue's own fields and the referrers' fees, and is kept by placements (`new_order_fine`) and all other steps (`wsteps_fine`). Volumes are bounded by the sequence number times 2^63. Owners, delegates and numbers follow from C29_identity. Theorems: `C70_fits`. All closed. Justifies modelling the stored numbers as unbounded integers.
* **C71 The TypeScript client reads the order book as the program does.** (partial) Ts.v models bookSide.ts and order.ts. `walk_spec` (TsFacts.v) shows that the client's stack walk yields the leaves of the tree in order, for any tree the representation invariant allows; the program's iterator is known to be the merge of both trees (BookSideFacts), so without pegged orders both agree. Depth tables by induction over the sorted orders (`levels_spec`). Theorems: `C71_reads_book_partial`, `C71_expiry_partial`, `C71_depth_partial`, `C71_pegged_fails`, `C71_pegged_refuted`, `C71_expiry_refuted`, `C71_best_refuted`. All closed. Holds for limit orders. Refuted for sides with a pegged order (all readers throw), for orders in the second they expire, and for best and depth, which include expired orders.
* **C72 The TypeScript client lists exactly an account's open orders.** (partial) Induction over the slots; a used slot's id belongs to at most one resting order, and that order's slot is this one (`backed`, C24), ids on a side are distinct, so looking the id up among the side's limit orders finds the account's own order or nothing. Theorems: `C72_own_orders_partial`, `C72_pegged_fails`. All closed. Holds for accounts without pegged orders; with one, the list throws.
* **C73 The balance the TypeScript client shows.** (partial) `backed` (C24) says what the position's totals stand for; the sums are rearranged against what the account is due (C61's base_due, quote_due) event by event. Theorems: `C73_balance_partial`, `C73_fills_refuted`. All closed. Proved up to the waiting fills and fees locked beyond need. Refuted with fills waiting: they are never counted, because the maker is compared with the owner's wallet.
* **C74 The TypeScript client's helpers for consuming events.** (partial) The heap's nodes are the ones the program iterates over (HeapFacts). JavaScript's comparison of objects is modelled by numbering objects as they are made. Theorems: `C74_raw_events`, `C74_accounts_partial`, `C74_stuck_refuted`, `C74_for_account_nothing`. All closed. Reading is exact, and events in the first 21 slots are covered. Refuted: events in later slots can be stuck behind stale slots, and consuming for one account never consumes anything.
* **C75 The TypeScript client finds the markets.** (partial) Lists of transactions are arbitrary. Market accounts are arbitrary byte strings of the shape of the account (market_layout, 848 bytes). On the bytes of Bytes.v: `BytesOn.v`. Theorems: `C75_stored_never_found`, `C75_found_refuted`, `C75_stored_mints_at`, `C75_few_partial`, `C75_many_missed`, `C75_mints_find_nothing`, `C75_right_offsets`. All closed. Up to 50 transactions are inspected once each; of more only the first 50, repeatedly. The search by mints uses wrong offsets and finds no market at all; the right ones are proved. The same on the stored bytes of every market.
* **C76 Acting through the TypeScript client.** (partial) The client's choice of signers and accounts is modelled as data; the effects come from C26, C31 and the model of placing an order. The witnesses are computed. That the owner can cancel and be paid out (C76_owner_can) combines C55's success lemmas for both instructions. Theorems: `C76_owner_can`, `C76_cancel_all_partial`, `C76_owner_must_sign`, `C76_delegate_refuted`, `C76_accounts_passed`, `C76_own_account_refuted`. All closed. Holds for the owner. Refuted for delegates, who cannot cancel through the client, and for orders that meet one's own among the first three owners, which fail because the own account is passed along.
* **C77 Cached fetching of accounts.** (partial) Fetch.v models account_fetcher.rs as a machine whose steps are those of the executor: a call begins, a task is polled, the node answers, a task is dropped, the cache is cleared, time passes. The theorems are proved by an invariant over all sequences of steps (`FetchFacts.v`): jobs in the maps are unfinished or unclaimed, listings in the cache have their accounts in the cache, every datum carries a time at which the chain held it. Theorems: `C77_authentic`, `C77_no_panic`, `C77_one_request`, `C77_always_returns`, `C77_remembered`, `C77_error_forgotten`, `C77_fresh_partial`, `C77_same_answers_partial`, `C77_clear_refuted`, `C77_abandoned_refuted`, `C77_backwards_refuted`. All closed. Authentic answers, no panic, one request, always returning, remembering and forgetting are proved. Refuted: after clearing, data read before it can be returned; abandoned requests answer later calls with old data; and a cached account can go back to older data.
* **C78 The Rust client's order sizes.** (partial) RClient.v models context.rs with the market's own fee functions. The bounds are division arithmetic over the market's ranges (C70); the witness is computed. Theorems: `C78_sizes_partial`, `C78_over_budget`, `C78_budget_refuted`, `C78_base_lots`, `C78_base_short`, `C78_dollars`. All closed. Right for base sizes in native units, and for quote sizes whose fee is below one unit. Whenever the fee is a unit or more the size exceeds the budget (witness: an order pays more than its budget); base sizes in whole tokens are always too small. Sizes in dollars are right on markets without fees and over the budget with fees.
* **C79 Acting through the Rust client.** (partial) RClient.v gives the instruction each client function builds. That cancelling and settling succeed follows from C26, C31, C35 and the ledger invariant; the negative theorems hold for every state. Theorems: `C79_cancel_and_settle_partial`, `C79_places`, `C79_cancels`, `C79_deposits`, `C79_admin_blocks`, `C79_consumes_nothing`. All closed. Orders that can be paid for go through, orders of the account are cancelled by their ids, and deposits bring exactly their amounts. The owner can always cancel and be paid out. On markets with an open orders admin nobody can place an order through the client, and consuming events through it never consumes one.
* **C80 Creating open orders accounts through the clients.** (partial) The machine of Program.v runs what the clients send. Account numbers are those the indexer counted (C58), so the highest number of an owner's open accounts is compared with the counter. Theorems: `C80_finds`, `C80_creates_partial`, `C80_created`, `C80_first_fails`, `C80_closed_newest_refuted`, `C80_ts_creates`, `C80_ts_created`. All closed. Proved for the TypeScript client. The Rust client succeeds exactly if the account numbered last is still open; it can never create an owner's first account.
* **C81 Fetching through the account cache of the Rust client.** (partial) `fetch_fresh` and `refresh_until` feed the cache of ChainData.v; C45's characterisation of the cached write by the history of news (`fed`, `counts`) gives what it answers. Theorems: `C81_refreshed_partial`, `C81_fresh_partial`, `C81_older_refuted`, `C81_nothing_refuted`. All closed. Holds if the slot of the node's answer is on the best chain, in particular above the head. Refuted otherwise: the refresh succeeds and the cache answers with older data or none.
* **C82 Decoding the accounts' bytes.** (proved) Bytes.v has the `repr(C)` structs field by field, the rules of alignment and padding, the types listed for the client and its decoders. Reading back is proved by induction over types (`BytesFacts.v`: packed layouts have no padding, reading inverts writing); for states on chain every number fits its field (C70), inner nodes by the tree invariant, links of the heap by its representation. The hand-written offsets are checked against the layout in `BytesDec.v`. Theorems: `C82_round_trip`, `C82_layouts`, `C82_orders`, `C82_events`, `C82_account`, `C82_market`. All closed. General round trip for layouts without gaps; the program's structs have none; book sides, event heap, open orders accounts and market in every state on chain.
* **C83 Finding one's open orders accounts.** (partial) FindOo.v models the searches and loading over a node that keeps the bytes of a program state (`kept`, SpecFindOo.v). Each market of a program on chain is a single market on chain (`chain_always`), so its accounts are decoded as they are (C82); the indexer's list is right by C58, and its bytes are read back by `indexer_reads`. Theorems: `C83_indexer_decodes`, `C83_finds_all`, `C83_finds_for_market`, `C83_rust_finds`, `C83_loads_partial`, `C83_too_many`, `C83_closed_market`, `C83_loads_refuted`. All closed. The lists are right in every state on chain (TypeScript: all and per market; Rust: by filters). Loading is right up to fifty accounts on markets not closed; it fails for more accounts, and for all of them if one market is closed.
* **C84 Prices and sizes in whole tokens.** (partial) Units.v models the conversions on the doubles of Oracle.v, including `toFixed` and the decimal numbers of big.js. FloatFacts.v gives every product as the exact one times a factor within 2^-53 of one; up to 2^50 three such factors move the number by less than one half, which `toFixed` undoes (`to_native_near`). With C69 this gives the deal in tokens. Theorems: `C84_price_partial` (R), `C84_size_partial` (R), `C84_price_down` (R), `C84_size_down` (R), `C84_shown_price_partial` (R), `C84_shown_size_partial` (R), `C84_price_refuted` (R), `C84_sent` (R), `C84_deal` (R), `C84_sell_refuted` (R). Those marked (R) use the real-number axioms listed above, the others are closed. Proved while the price in the smallest units (ticks * quote lot size * 10^base decimals) and the size in native units are at most 2^50; beyond it is false (8.03 is sent as 8.02). Shown prices need a tick of at most 20 decimal places. Prices between ticks are rounded down on both sides, so a seller may offer below the price given.
* **C85 A stub oracle says what its owner last said.** (proved) Stub.v models the three instructions on a list of accounts by address. By induction over the history of calls every account lies at the address of its owner and mint (`history_at`) and no address occurs twice (`history_keys`), so the account equals `last_stated` (`stub_last`); `price_inv` of OracleFacts.v gives what a market takes from it. Theorems: `C85_last`, `C85_only_owner`, `C85_market`, `C85_taken`, `C85_closed`, `C85_negative_refuted`. All closed. Addresses derived from different owners or mints are assumed to differ. A negative price is accepted by a market whose confidence filter is 0, and after closing every order of a market that reads the account fails.
* **C86 Keeping and winding down a market through the TypeScript client.** (partial) TsKeep.v gives for each function the instruction and the keys marked as signers. The effects come from C25, C26, C33 and C40. Theorems: `C86_consume`, `C86_given_partial`, `C86_given_never`, `C86_given_refuted`, `C86_deposit`, `C86_deposit_others`, `C86_prune`, `C86_close_market`. All closed. Consuming in order, deposits by the owner, pruning and closing are proved. Consuming given slots is proved for markets with an admin; without one the client marks the default key as a signer, so nobody can do it (C86_given_never, C86_given_refuted).
* **C87 The exported conversions of prices and sizes.** (partial) UnitsMkt.v on top of Units.v. `native_exact` (UnitsMktFacts.v): the nearest double of a whole number of smallest units is turned into that number. Then division. Theorems: `C87_price_partial` (R), `C87_size_partial` (R), `C87_quote_partial` (R), `C87_price_near` (R), `C87_same_partial` (R), `C87_native` (R), `C87_price_refuted` (R), `C87_native_refuted` (R). Those marked (R) use the real-number axioms listed above, the others are closed. Proved for prices of whole smallest units of the quote token and sizes up to 2^50 units. With a finer tick it is false: 0.0000015 becomes 20 ticks instead of 15 (C87_price_refuted). The price in smallest units is correct but 0 for usual markets (C87_native_refuted).
* **C88 Depositing SOL through the TypeScript client.** (partial) TsNative.v gives the four instructions one after another. `exec_deposit_frame` (TsNativeFacts.v): a deposit does not depend on token accounts it does not name. Theorems: `C88_goes_partial`, `C88_is_deposit`, `C88_needs_tokens`, `C88_refuted`. All closed. False: the deposit is taken from the account the caller names, not from the one the SOL was wrapped into (C88_refuted, C88_needs_tokens). Proved: the call is the plain deposit, all SOL comes back, and it goes through when the owner has the tokens as well.
* **C89 Opening an account through the TypeScript client.** (proved) TsOpen.v gives the instructions built from the indexer as read and checks the address as Anchor does, over the machine of many markets. With C58; a stale counter gives another address because addresses differ. Theorems: `C89_opens`, `C89_opened`, `C89_stale`. All closed.
* **C90 Which markets can be created.** (proved) `fair_terms` and `fresh_market` (SpecCreate.v) say in plain numbers what the checks one after another amount to. Theorems: `C90_creates`, `C90_created`, `C90_alone`. All closed. The length of the name (16 bytes) and the types of the oracle accounts, which the program also checks, are not part of the model.
* **C91 A closed market is over, and a market created again at its address starts with nothing owed.** (proved) `over` (SpecAgain.v) holds at closing by C33 and is kept by every instruction a closed market still allows (closing and delegating accounts, token movements). Again.v creates a market while keeping the old accounts; `backed` and `solvent` (C24, C22) hold of it because everything is zero. Theorems: `C91_over`, `C91_stays`, `C91_among_others`, `C91_again`, `C91_other_vaults`. All closed. What happens on the second market after its creation is not part of the machine of many markets; C91_again gives its first state.

## Findings

Each is a theorem named `..._refuted`, or a corollary visible in the theorem named.

* F1 (C08) `BookSideIter`'s skip loop replaces the peeked pegged order by `next()`, so one live
  pegged order behind an out-of-range one is not offered: the best one in range when a limit
  order is listed before it, the second best otherwise. No more than one is lost.
* F2 (C36) `edit_order` of an order nothing of which was filled cancels it and places nothing.
* F3 (C37) self-trading against one's own fixed-price bid does not release the maker fee locked
  for it when it was posted.
* F4 (C38) `place_take_order` adds the referrer's part to the accrued fees although no referrer
  payment follows.
* F5 (C05, C39) `remove_one_expired` compares with `<`, `is_expired` with `>=`: an order that
  expires this second is invalid but not removed.
* F6 `has_no_orders` is always false (unused).
* F7, F8 (C44) the router's `quote` reports the input in lots times lot size without regard to
  the amount asked, and leaves fees and expired orders out of account.
* F9 (C45) the client's cache keeps two writes of one slot.
* F10 (C50) posting on a side full of pegged orders without an oracle price panics.
* F11 (C50) with all 1024 nodes in use, evicting the only pegged order frees one node while
  inserting needs two: the order is refused.
* F12, F13 (C14, C18) an order limited by its quote budget stops matching at the best order,
  goes on to worse ones (asks), or is posted at a price crossing the other side.
* F14 (C12) a pegged order matches beyond its own peg limit when it takes.
* F15 (C41) a NaN deviation passes the confidence test.
* F16 (C42) `power_of_ten_float` panics when the decimals differ by more than 12.
* F17 (C41) with two oracles and a first price of zero the confidence of the pair is NaN, and
  the second oracle's deviation goes unchecked.
* F18-F22 (C45) the client's account cache: late writes for abandoned forks are live; a slot
  announced after its child is not marked; a slot first seen as rooted drops newer writes; the
  parent invented for RPC answers is never corrected; cyclic parents make `update_slot` loop.
* F23 (C58) closing and re-creating an indexer restarts the account numbers: the address of a
  closed open orders account can come back as an account of another market. Nothing in the
  program refers to it any more then, but off-chain software may.
* F24 (C65) `TotalOrderFillEvent` for `place_take_order` states the whole taker fee, which is not
  charged: the wallet pays the quote and the makers' rebates only.
* F25 (C65) `taker_fee_ceil` is rounded up per fill in `FillLog` but charged once per order: the
  stated fees exceed the charged one by up to one unit per fill.
* F26 (C65) the taker's `OpenOrdersPositionLog` is emitted before what is left of the order is
  posted, and depositing, cancelling and settling emit none: the last one is not the position.
* F27 (C68) a market can be closed while an empty account on it has an unpaid penalty (an order
  that drops an expired order and trades nothing leaves one). Settling, the only way to pay it,
  needs the market: the account can never be closed and its rent is lost.
* F28 (C71, C72) in the TypeScript client one pegged order on a side makes `items`, `best`,
  `getL2` and the account's list of orders throw, and `placeOrder` with them: the price of a
  pegged order is not implemented.
* F29 (C71) its `best` and `getL2` include expired orders, and its cluster time is 0 unless the
  caller sets it; in the second of expiry the program already refuses an order it shows as live.
* F30 (C73) `getBalanceNative` never counts waiting fills: it compares the maker, an open orders
  account, with the owner's wallet.
* F31 (C74) `getAccountsToConsume` looks at all nodes of the array, free ones included, removes
  no duplicates (`!==` on objects) and stops after 21: an event in a later slot can be stuck.
* F32 (C74) `getSlotsToConsume` compares objects with `===` and always returns the empty list:
  `consumeEventsForAccountIx` does nothing.
* F33 (C75) `findAllMarkets` asks for the first 50 transactions again in every batch.
* F34 (C75) `findAccountsByMints` compares at offsets 792 and 824 where the mints are at 576 and
  608; the second comparison reaches beyond the 848 bytes of the account: nothing is found.
* F35 (C76) cancelling through the client always names the owner as signer: a delegate, whom the
  program allows to cancel, cannot.
* F36 (C76) `placeOrder` passes the user's own open orders account along when it is among the
  first three owners on the other side; matching an own order then fails.
* F37 (C77) `CachedAccountFetcher`: a request on the way when the cache is cleared fills it with
  data read before; calls after `clear_cache` are then answered with it.
* F38 (C77) a request whose tasks were all dropped stays in the map; whoever asks next, however
  much later, gets what the node answered then.
* F39 (C77) an answer taken in late overwrites newer data that a listing brought.
* F40 (C78) `max_quote_lots_including_*_fees` add the fee, in native units, to lots: orders sized
  with them pay more than the budget.
* F41 (C78) `max_base_lots_from_usd` multiplies by the number of decimals, not by 10 to its power.
* F42 (C79) the Rust client's `place_order` never passes the open orders admin: on markets with
  one every order fails.
* F43 (C79) its `consume_events` passes no accounts along and so never consumes an event.
* F44 (C80) `find_or_create_account` derives the new account from the highest number in use, 0 if
  there is none, where the program counts from 1 and does not reuse numbers: an owner's first
  account cannot be created, nor one after the newest was closed.
* F45 (C81) an answer of the node for a slot off the best chain is stored but not used:
  `fetch_fresh` and `refresh_accounts_via_rpc_until_slot` report success and the cache answers
  with older data.
* F46 (C83) `loadAllOpenOrders` asks for both books of every account in one request, of which a
  node answers 100 addresses: with more than fifty open orders accounts (256 are allowed) it fails.
* F47 (C83) an open orders account left on a closed market makes `loadAllOpenOrders` fail for all
  accounts of the owner.
* F48 (C84) `priceUiToLots` loses a tick at usual prices on markets with large lots: with lots of
  one SOL and a tick of 0.01 USDC the price 8.03 is sent as 8.02 (in a count outside
  Coq, 7233 of the first 300000 prices were off by one tick).
* F49 (C84) `priceUiToLots` rounds down for both sides: a seller's price between two ticks becomes
  a lower one.
* F50 (C85) Prices of stub oracles are not checked: unlike a Pyth price, a negative one is taken by
  a market whose confidence filter is 0 (`create_market` does not check the filter either).
* F51 (C86) `consumeGivenEventsIx` and `consumeEventsForAccountIx` pass the market's key for the
  admin of events as it is. On a market without one this is the default key, marked as a signer,
  and no transaction with it can be signed.
* F52 (C87) `uiPriceToLots` of market.ts rounds the price to the quote token's smallest unit before
  it counts ticks. With a tick of 0.0000001 USDC the price 0.0000015 becomes 20 ticks: a buyer
  offers a third more than the price given. `priceUiToLots` of the market class gives 15.
* F53 (C87) `priceLotsToNative` returns 0 for every price below one smallest unit of quote per
  smallest unit of base, on SOL/USDC for all prices below 1000.
* F54 (C88) `depositNativeIx` wraps SOL into an account it makes up and closes it again, but the
  deposit in between takes the base tokens from the account the caller named. No SOL is
  deposited.

Seen in the TypeScript client and not modelled: `closeOpenOrdersIndexerIx` passes bids and asks
as indexer and destination. In `OrderToPlace` the price and size are in tokens but `quoteLimit` is in quote
lots, and a `clientOrderId` of 0 is replaced by the time.

Smaller ones: decimals above 127 wrap to negative (`as i8`); `consume_given_events` with free
slots among the given ones consumes the oldest other events; `cancel_order` by id can pick the
other side's order only after 2^63 orders; `edit_order` succeeds as a pure cancel on an expired
market; an order whose expiry has passed returns success and does nothing.

## Testing the theorems

`seeded/LOG.jsonl` records edits of the model that a realistic bug would make, what each breaks
and which theorems then fail. Where none failed a theorem was added or tightened (C48 for
early-stopping matching loops, C54 for rounding of the affordable amount).
