{"claims": [
 {"property": "C01", "status": "proved", "theorems": ["C01_tick_prices"], "note": ""},
 {"property": "C02", "status": "proved", "theorems": ["C02_conversion"], "note": ""},
 {"property": "C03", "status": "proved", "theorems": ["C03_place_effect", "C03_place_accepted"], "note": ""},
 {"property": "C04", "status": "proved", "theorems": ["C04_ids_increase", "C04_ids_unique"], "note": ""},
 {"property": "C05", "status": "proved", "theorems": ["C05_cancel_effect"], "note": ""},
 {"property": "C06", "status": "proved", "theorems": ["C06_cancel_iff", "C06_cancel_unfilled"], "note": ""},
 {"property": "C07", "status": "proved", "theorems": ["C07_withdraw"], "note": ""},
 {"property": "C08", "status": "proved", "theorems": ["C08_fifo_state", "C08_claim_settles_fifo"], "note": ""},
 {"property": "C09", "status": "proved", "theorems": ["C09_claim_iff"], "note": ""},
 {"property": "C10", "status": "proved", "theorems": ["C10_claim_split"], "note": ""},
 {"property": "C11", "status": "proved", "theorems": ["C11_accounting", "C11_gone_for_good"], "note": ""},
 {"property": "C12", "status": "proved", "theorems": ["C12_maker_price"], "note": ""},
 {"property": "C13", "status": "proved", "theorems": ["C13_batch_is_claims", "C13_batch_accepted"], "note": ""},
 {"property": "C14", "status": "proved", "theorems": ["C14_swap_result"], "note": ""},
 {"property": "C15", "status": "proved", "theorems": ["C15_pointer", "C15_price_priority"], "note": ""},
 {"property": "C16", "status": "proved", "theorems": ["C16_quote_exact", "C16_quote_fails", "C16_queries_agree"], "note": "stated for both names of the query (CalcOutAmountGivenIn and its alias)"},
 {"property": "C17", "status": "proved", "theorems": ["C17_swap_to_tick"], "note": ""},
 {"property": "C18", "status": "proved", "theorems": ["C18_swap_fills"], "note": ""},
 {"property": "C19", "status": "proved", "theorems": ["C19_pool_liquidity"], "note": "Query answer = ideal open interest = sum of tick liquidities; assumes bank balances fit in u128 (bank type)."},
 {"property": "C20", "status": "proved", "theorems": ["C20_solvent", "C20_transfers_covered", "C20_wind_down"], "note": "Solvency for all histories; no call fails for lack of funds; any order of withdrawing everything pays everyone exactly and empties the book."},
 {"property": "C21", "status": "proved", "theorems": ["C21_tree", "C21_ranges_disjoint"], "note": "stored nodes of every tick/direction form the balanced sumtree of exactly the cancelled ranges of the history"},
 {"property": "C22", "status": "proved", "theorems": ["C22_prefix_sum", "C22_no_tree"], "note": "for every stored tree satisfying the independent holds_tree predicate"},
 {"property": "C23", "status": "proved", "theorems": ["C23_totals", "C23_sync"], "note": "totals equal those of the ideal book; sync never fails (aborts only after exhausting 2^64 node ids)"},
 {"property": "C24", "status": "proved", "theorems": ["C24_predicts_sync", "C24_idempotent", "C24_skip_harmless", "C24_query"], "note": "C24_naive_refuted shows why the skip case must be excepted"},
 {"property": "C25", "status": "proved", "theorems": ["C25_inactive", "C25_frozen", "C25_auth_works"], "note": "Every trading and chain message fails while off; over whole histories nothing changes or is paid; Auth messages succeed exactly as with the book on."},
 {"property": "C26", "status": "proved", "theorems": ["C26_sudo_refuted", "C26_who_reactivates", "C26_moderator_can"], "note": "The expected claim is refuted for every inactive state; only admin/moderator can reactivate, and the always existing moderator can."},
 {"property": "C27", "status": "proved", "theorems": ["C27_auth_exact", "C27_chain_exact", "C27_others", "C27_who_changes", "C27_admin_keeps", "C27_handover"], "note": "Exact permission and effect of every Auth and role message; per-field who-changes theorem; history-level theorem that a silent admin keeps the role."},
 {"property": "C28", "status": "proved", "theorems": ["C28_offer_survives", "C28_final_without_offer"], "note": "Refutation for every state with a pending offer (reachable Examples C28_case, C28_case_renounce); finality without a pending offer."},
 {"property": "C29", "status": "proved", "theorems": ["C29_limits", "C29_denoms_fixed"], "note": "Invariant over all histories."},
 {"property": "C30", "status": "proved", "theorems": ["C30_page", "C30_truncated", "C30_paging", "C30_by_tick_filter"], "note": "page contents and order, count, truncation of the limit, paging; example query_case"},
 {"property": "C31", "status": "proved", "theorems": ["C31_orders_by_tick"], "note": "for fewer than 2^32 orders at the tick (usize on wasm32)"},
 {"property": "C32", "status": "proved", "theorems": ["C32_all_ticks", "C32_ticks_by_id", "C32_known_ticks"], "note": "also: the known ticks are exactly those ever used"},
 {"property": "C33", "status": "proved", "theorems": ["C33_spot_price", "C33_cancel_blind", "C33_refuted"], "note": "bound proved; the documented stronger claim is refuted by C33_cancel_blind and the Example C33_refuted"},
 {"property": "C34", "status": "proved", "theorems": ["C34_buy_executes", "C34_sell_blocked"], "note": ""},
 {"property": "C35", "status": "proved", "theorems": ["C35_claim_isolated", "C35_any_sender", "C35_claims_commute"], "note": ""},
 {"property": "C36", "status": "proved", "theorems": ["C36_place_local", "C36_cancel_local", "C36_claim_local", "C36_swap_local"], "note": ""},
 {"property": "C37", "status": "proved", "theorems": ["C37_exact_out_fails", "C37_calc_in_fails"], "note": "unimplemented!() is modelled as Panic; the theorem says no argument or state lets it return."},
 {"property": "C38", "status": "proved", "theorems": ["C38_instantiate", "C38_queries", "C38_open_for_trading"], "note": "iff for success, the complete resulting state, and what every query answers on it. A newborn book accepts every valid order."},
 {"property": "C39", "status": "proved", "theorems": ["C39_order_identity"], "note": ""},
 {"property": "C40", "status": "proved", "theorems": ["C40_leftover"], "note": ""},
 {"property": "C41", "status": "proved", "theorems": ["C41_answers"], "note": ""},
 {"property": "C42", "status": "proved", "theorems": ["C42_indexer", "C42_place_announces", "C42_cancel_announces", "C42_claim_announces", "C42_swap_announces"], "note": "indexer driven by responses only equals the stored order table; exact responses"},
 {"property": "C43", "status": "proved", "theorems": ["C43_settings"], "note": "each setting is the last value said by a successful call"},
 {"property": "C44", "status": "proved", "theorems": ["C44_quote_monotone", "C44_swap_monotone"], "note": ""},
 {"property": "C45", "status": "proved", "theorems": ["C45_split_swaps", "C45_split_quotes"], "note": ""},
 {"property": "C46", "status": "proved", "theorems": ["C46_no_free_money"], "note": "Value at a price between the best bid and best ask; Examples C46_case (hypotheses met) and C46_crossed (hypothesis needed)."},
 {"property": "C47", "status": "proved", "theorems": ["C47_paid_in_full", "C47_all_or_nothing", "C47_reply_refuses"], "note": "Example C47_case: a batch with one blocked owner fails as a whole."},
 {"property": "C48", "status": "proved", "theorems": ["C48_balance_blind", "C48_donations_ignored"], "note": "Examples C48_case, C48_hyp."},
 {"property": "C49", "status": "proved", "theorems": ["C49_lifetime", "C49_complete"], "note": "Example C49_case: three partial claims."},
 {"property": "C50", "status": "proved", "theorems": ["C50_same_outcomes", "C50_same_state", "C50_same_quotes"], "note": "Specification: SpecMachine.v (m_step, m_quote, shows); the machine is computed against the contract on a 14-step history in C50_case. Best-price pointers (spot prices) are not part of the machine's state; C33 covers them."},
 {"property": "C51", "status": "proved", "theorems": ["C51_no_trace"], "note": "Two histories compared call by call through the machine of C50; ids renumbered by SpecTrace.later"},
 {"property": "C52", "status": "proved", "theorems": ["C52_only_numbers_matter", "C52_clock"], "note": "Equivariance of the machine of C50, transported to the contract"},
 {"property": "C53", "status": "proved", "theorems": ["C53_same_future"], "note": "First-in-first-out order and the visible totals determine the filled part of each order, hence the state of the machine of C50"},
 {"property": "C54", "status": "proved", "theorems": ["C54_commute"], "note": "Order-managing calls are edits of the orders they concern (machine of C50); edits of different orders commute"},
 {"property": "C55", "status": "proved", "theorems": ["C55_time_priority", "C55_seen"], "note": "for the first-in-first-out book of C08 and, in terms of calls and announced events, for the contract"},
 {"property": "C56", "status": "proved", "theorems": ["C56_depth"], "note": "Two arbitrary histories whose books agree up to a tick T that the swap does not use up: same response data, attributes and payment, same fills; case: C56_case (one order against two orders with depth behind and bids; the refund differs by one dust unit)."},
 {"property": "C57", "status": "proved", "theorems": ["C57_pointers", "C57_shown", "C57_after_swap"], "note": "Per-step specification of both pointers for every transaction kind, the query answers in every reachable state, and the marginal-price reading after swaps; initial values are C38_queries; case: C57_case. Added after mutant s14 (ask pointer never moved by swaps) survived."},
 {"property": "C58", "status": "proved", "theorems": ["C58_behind"], "note": "two runs of the machine related on the orders ahead; the walk through the levels agrees up to the order's tick, there up to what is open ahead of it"},
 {"property": "C59", "status": "proved", "theorems": ["C59_accounts", "C59_step"], "note": "Exact balance decomposition over rationals; worth_exact, owed_exact and leaves_behind are in SpecAccount.v."},
 {"property": "C60", "status": "proved", "theorems": ["C60_corridor"], "note": "Over rationals; spot price = price of next_tick (C57_shown)."},
 {"property": "C61", "status": "proved", "theorems": ["C61_price_of_amount", "C61_sold_out"], "note": "Buy side. Base balance of the contract at most 2^128-1 (true of a bank balance)."},
 {"property": "C62", "status": "proved", "theorems": ["C62_deeper_book", "C62_exact_refuted", "C62_price_either_side", "C62_quote_either_side", "C62_exact_refuted_for_sells"], "note": "Both sides. The exact claim is refuted by C62_exact_refuted and C62_exact_refuted_for_sells; the others prove the bounds that do hold (slack in SpecCover.v)."},
 {"property": "C63", "status": "proved", "theorems": ["C63_paging_while_trading", "C63_tick_orders_while_trading", "C63_ticks_while_trading"], "note": "Page length between 1 and 2^32-1 (orders), at least 1 (ticks)."},
 {"property": "C64", "status": "proved", "theorems": ["C64_delete", "C64_prefix_sum", "C64_reachable"], "note": "The function is not called by the contract (only by its tests); C64_unused shows a cancellation that would be refused after it."},
 {"property": "C65", "status": "proved", "theorems": ["C65_bounded_calls", "C65_cancel_logarithmic", "C65_swap_levels"], "note": "entries of the contract storage that differ before and after the call (SpecCost.changes); reads and gas units are not counted"},
 {"property": "C66", "status": "proved", "theorems": ["C66_quote_covers", "C66_executes_iff_covered"], "note": "Both sides; contract balance of the output token at most 2^128-1 (true of a bank balance). price_of, capacity, no_dust in SpecCover.v."},
 {"property": "C67", "status": "proved", "theorems": ["C67_no_orphans", "C67_tree_nodes", "C67_total_nodes", "C67_orders_and_ticks"], "note": "nodes, orders and ticks; the root pointers and the id counters (one per tick and direction) are not counted"},
 {"property": "C68", "status": "proved", "theorems": ["C68_refusals", "C68_known_errors", "C68_queries", "C68_new_book"], "note": "The entry point's answer (before the bank carries out the transfers, which C50 covers) is compared with verdict_of of SpecWhy.v on the machine of SpecMachine.v, and the answer of every query with query_verdict there. 'Unknown tick' refers to ticks where an order was ever placed; the best price is the pointer shown by the orderbook query (C15). Errors are compared with their payloads; InvalidSwap texts are compared as the reason and the two numbers printed in them. C68_case shows that every listed error occurs with its payload, and that the pool-total query really panics above 128 bits."},
 {"property": "C69", "status": "proved", "theorems": ["C69_bounded_calls", "C69_orders", "C69_batch", "C69_swap_scope", "C69_swap_scans", "C69_free_scans", "C69_swap_unbounded"], "note": "Upper bounds on the entries a call depends on (C69_bounded_calls, C69_orders, C69_batch, C69_swap_scope); lower bound for swaps (C69_swap_scans) and the resulting free griefing (C69_free_scans, with C69_swap_unbounded as a concrete family of books where the swap does execute)."},
 {"property": "C70", "status": "proved", "theorems": ["C70_distinct", "C70_order", "C70_tick_scan", "C70_order_scan", "C70_owner_scans", "C70_indexes"], "note": "Keys.v models the key layout and the index maintenance of cw-storage-plus 1.2.0; that the library lays keys out this way is trusted. Concrete case: C70_case."},
 {"property": "C71", "status": "proved", "theorems": ["C71_listener", "C71_payments", "C71_values", "C71_in_range", "C71_store", "C71_messages", "C71_answers", "C71_narrow"], "note": "Texts as in Wire.v and Codec.v: Display/FromStr of numbers and decimals, cw_serde JSON, prost protobuf. Not modelled: JSON escapes above \\u00ff, quoted-number leniencies of serde-json-wasm beyond those listed, floating point numbers (none occur). On-chain facts used: block times are u64, sender addresses are shorter than 65536 bytes."},
 {"property": "C72", "status": "proved", "theorems": ["C72_two_parts", "C72_parts"], "note": "price_of in SpecCover.v (C66), in_parts in SpecParts.v."},
 {"property": "C73", "status": "proved", "theorems": ["C73_nobody_else_notices", "C73_late_claim"], "note": "Also: the late order keeps its identity and has at least the quantity of the early one. Proved on the machine of C50: the early book is the late book with x filled units of the order cut off, which commutes with every other call. Claims of the order through a batch together with other orders are not covered (their answers differ, naturally)."},
 {"property": "C74", "status": "proved", "theorems": ["C74_two_pieces", "C74_claims", "C74_cancels"], "note": "Proved on the machine of C50: the book with the pieces is the book with the whole order cut at q1 (fills go to the first piece first), which commutes with every other call. The pieces' reads: visible_data, everything but the id and the position in the tick (which is internal)."},
 {"property": "C75", "status": "proved", "theorems": ["C75_two_books"], "note": "Proved on the machine of C50: a relation between the book and the book with one side frozen, which every call preserves; ids are renumbered by counting. Spot price and order records on the other side's ticks are read in C36 and C57."},
 {"property": "C76", "status": "proved", "theorems": ["C76_claimable", "C76_predicts"], "note": "The client's formula is defined on the answers of the query function; n is shown to be the filled, unclaimed part of the order in the FIFO book, and C76_predicts gives acceptance of claim and cancel and the payment. Up to 2^56 calls (short). Case: C76_case (cancels before, between and after)."},
 {"property": "C77", "status": "proved", "theorems": ["C77_clean_tick", "C77_empty_book", "C77_cleared"], "note": "clean is defined on the query answers, as in the end-to-end test. C77_cleared: clearing any list of orders that has every live one, by claim then cancel. Up to 2^56 calls (short). Case: C77_case."},
 {"property": "C78", "status": "proved", "theorems": ["C78_shrinks", "C78_quotes", "C78_prices", "C78_exact_refuted"], "note": "The exact statement (as asserted by the end-to-end tests) is refuted for both sides; up to the rounding slack of C62 it is proved for every later history without placements on the side. Case: C78_case."},
 {"property": "C79", "status": "proved", "theorems": ["C79_liquidity_of_orders", "C79_few_left"], "note": "C79_liquidity_of_orders: pool liquidity and every tick's liquidity are the sums of what the stored orders still offer (remaining less claimable, as queried); C79_few_left: at most n orders not completely filled when n is shown, at most n orders left when none can be claimed completely. C79_case: five orders, then two left with one unit on each side."}
]}
