{"id": "C01", "title": "Every valid tick has a price, inside the advertised spot-price range, and higher ticks are strictly more expensive", "statement": "For each tick id in [MIN_TICK, MAX_TICK] the tick-to-price conversion succeeds, the price lies between min_spot_price and max_spot_price, and a larger tick id always has a strictly larger price; every tick id outside the range is rejected.", "quantifier": "all 290,402,824 valid tick ids, all pairs of them, and all out-of-range i64 ids", "why_tests_cant": "290 million ticks and ~10^17 pairs; the unit tests sample about thirty ticks.", "anchors": ["contracts/sumtree-orderbook/src/tick_math.rs:tick_to_price", "contracts/sumtree-orderbook/src/tick_math.rs:pow_ten", "contracts/sumtree-orderbook/src/constants.rs"]}
{"id": "C02", "title": "Amount/price conversion is total and rounds exactly as requested", "statement": "For every valid tick and every Uint128 amount, converting an amount at the tick's price (multiply for asks, divide for bids, round down or up) never errors and never panics; the multiplication is exact before rounding, the rounded-down division is the exact floor of amount/price, and the rounded-up division is at most 10^-18 below the exact quotient before the ceiling is taken.", "quantifier": "all valid ticks, all u128 amounts, both directions, both rounding modes", "why_tests_cant": "The input space is 2^128 x 290M; overflow happens only at its extreme corner (MAX_TICK was chosen so that 2^128 * price just fits 256 bits).", "anchors": ["contracts/sumtree-orderbook/src/tick_math.rs:amount_to_value", "contracts/sumtree-orderbook/src/tick_math.rs:multiply_by_price", "contracts/sumtree-orderbook/src/tick_math.rs:divide_by_price"]}
{"id": "C03", "title": "Placing a limit order: exact acceptance rule and exact effect", "statement": "PlaceLimit succeeds only if the book is active, the tick is in range, quantity > 0, the bounty (if any) is <= 1%, and the attached funds are exactly one coin of the order's deposit denom with amount = quantity; on success a new order with that owner/tick/direction/quantity exists, liquidity of that tick and direction grows by exactly quantity, no coins are sent, and no other order, tick, tick direction, fee, role or switch changes.", "quantifier": "all reachable states, all senders, ticks, quantities, bounties and fund lists", "why_tests_cant": "Frame conditions ('nothing else changes') and all combinations of malformed funds cannot be enumerated by tests.", "anchors": ["contracts/sumtree-orderbook/src/order.rs:place_limit", "contracts/sumtree-orderbook/src/contract.rs:dispatch_place_limit"]}
{"id": "C04", "title": "Order ids are unique forever", "statement": "Each successful PlaceLimit receives an order id strictly larger than every id issued earlier, so an id never names two orders, not even after claims, cancels or failed calls.", "quantifier": "all call histories", "why_tests_cant": "Uniqueness ranges over unbounded histories.", "anchors": ["contracts/sumtree-orderbook/src/state.rs:new_order_id", "contracts/sumtree-orderbook/src/order.rs:place_limit"]}
{"id": "C05", "title": "Cancelling refunds exactly the open quantity to the owner, and only the owner can cancel", "statement": "A successful CancelLimit was sent by the order's owner without funds, produces exactly one transfer - the order's full remaining quantity in the deposit denom to the owner -, removes that order, lowers liquidity of that tick/direction and of the pool by exactly that quantity, and changes no other order.", "quantifier": "all reachable states, senders, tick and order ids", "why_tests_cant": "Must hold after every history of fills, claims and other cancels.", "anchors": ["contracts/sumtree-orderbook/src/order.rs:cancel_limit"]}
{"id": "C06", "title": "Cancel is refused exactly when part of the order is filled but unclaimed (FIFO view)", "statement": "In every reachable state a CancelLimit by the owner of a live order is accepted if, and only if, first-in-first-out matching of all fills and cancels at that tick and direction has filled none of the order's remaining quantity; in particular accepted cancels never give back tokens that a swap already paid out.", "quantifier": "all reachable states and all live orders", "why_tests_cant": "The decision goes through the lazily synchronised sumtree; tests cover a handful of cancel/fill patterns out of infinitely many.", "anchors": ["contracts/sumtree-orderbook/src/order.rs:cancel_limit", "contracts/sumtree-orderbook/src/tick.rs:sync_tick", "contracts/sumtree-orderbook/src/sumtree/tree.rs:get_prefix_sum"]}
{"id": "C07", "title": "An unfilled order can always be withdrawn", "statement": "In every reachable state with an active book, CancelLimit by the owner of an order with nothing filled succeeds: the tick sync, the sumtree insertion and rebalancing, and the liquidity counters can never fail for it (barring u64 node-id exhaustion and recipients to which the bank refuses transfers).", "quantifier": "all reachable states, all live orders", "why_tests_cant": "A failing tree insertion would lock funds; it depends on the shape the tree took over the whole history.", "anchors": ["contracts/sumtree-orderbook/src/order.rs:cancel_limit", "contracts/sumtree-orderbook/src/sumtree/node.rs:insert", "contracts/sumtree-orderbook/src/sumtree/node.rs:rebalance", "contracts/sumtree-orderbook/src/sumtree/tree.rs:prefix_sum_walk"]}
{"id": "C08", "title": "Claims pay the FIFO fill: price-time queue refinement", "statement": "For any history of placements, cancels, claims and swaps, the part of an order that a claim settles equals what an idealised FIFO queue of that tick and direction (swaps consume orders oldest first, cancelled orders drop out) says has been filled and not yet claimed; tick liquidity equals the queue's total open quantity.", "quantifier": "all histories, all ticks, both directions, all orders", "why_tests_cant": "This is a simulation between the sumtree bookkeeping (ETAS, realized cancels, lazy sync) and a queue over unbounded histories.", "anchors": ["contracts/sumtree-orderbook/src/order.rs:claim_order", "contracts/sumtree-orderbook/src/tick.rs:sync_tick", "contracts/sumtree-orderbook/src/sumtree/tree.rs:prefix_sum_walk", "contracts/sumtree-orderbook/src/order.rs:run_market_order_internal"]}
{"id": "C09", "title": "A filled order can always be claimed by anyone, an unfilled one never", "statement": "In every reachable active state, ClaimLimit on a live order succeeds if the FIFO queue says part of it is filled and unclaimed, and fails without changing anything if not; neither the tick sync nor any arithmetic in the claim can fail (barring u64 node-id exhaustion and recipients to which the bank refuses transfers).", "quantifier": "all reachable states, all live orders, all senders", "why_tests_cant": "Liveness in every reachable state; an arithmetic or prefix-sum failure would freeze funds.", "anchors": ["contracts/sumtree-orderbook/src/order.rs:claim_order", "contracts/sumtree-orderbook/src/order.rs:claim_limit", "contracts/sumtree-orderbook/src/tick.rs:sync_tick"]}
{"id": "C10", "title": "Claim proceeds are split without loss, within the advertised fee caps", "statement": "On a successful claim the gross proceeds (filled amount at the tick price, rounded down) equal owner payout + bounty + maker fee exactly; the bounty is floor(bounty rate x gross) and goes to the caller, the fee is floor(fee rate x gross) and goes to the fee recipient, everything else goes to the order owner, all in the opposite denom; bounty <= 1% and fee <= 5% of gross, so the owner gets at least 94% of gross; zero parts are not sent.", "quantifier": "all reachable states, orders, callers, fee settings and bounties", "why_tests_cant": "Conservation over 256-bit fixed-point arithmetic for all amounts.", "anchors": ["contracts/sumtree-orderbook/src/order.rs:claim_order", "contracts/sumtree-orderbook/src/orderbook.rs:set_maker_fee", "contracts/sumtree-orderbook/src/state.rs:get_maker_fee"]}
{"id": "C11", "title": "No double spending of an order", "statement": "Over any history, for every order: quantity still open + everything ever settled by claims + everything refunded by cancel equals the quantity originally placed; once settled in full or cancelled, the order no longer exists and can never be claimed or cancelled again.", "quantifier": "all histories, all orders", "why_tests_cant": "Accounting over unbounded histories including repeated and batched claims.", "anchors": ["contracts/sumtree-orderbook/src/order.rs:claim_order", "contracts/sumtree-orderbook/src/order.rs:cancel_limit"]}
{"id": "C12", "title": "Makers never get a worse price than their limit (up to one unit of rounding per claim)", "statement": "A claim that settles f units of an order at tick price p has gross proceeds strictly greater than f*p - 1 (asks) or f/p - 1 (bids) and at most that amount.", "quantifier": "all reachable states, orders and ticks", "why_tests_cant": "Needs exact real-number reasoning for all amounts and prices.", "anchors": ["contracts/sumtree-orderbook/src/order.rs:claim_order", "contracts/sumtree-orderbook/src/tick_math.rs:amount_to_value"]}
{"id": "C13", "title": "Batch claim equals independent claims; failing entries are harmless", "statement": "BatchClaim of at most 100 pairs has, entry by entry, the same payouts and the same effect on orders, fills and liquidity as processing the entries as separate ClaimLimit calls and ignoring those that fail; an entry that fails (unknown, unfilled, duplicate) loses nobody any order, fill or payout; more than 100 entries are rejected.", "quantifier": "all reachable states, all lists of (tick, order) pairs", "why_tests_cant": "Errors are swallowed after storage may already have been written, so this is only safe if no late failure is reachable in any state.", "anchors": ["contracts/sumtree-orderbook/src/order.rs:batch_claim_limits", "contracts/sumtree-orderbook/src/order.rs:claim_order"]}
{"id": "C14", "title": "Swap result is what was promised: minimum output, right denom, right recipient, input accounted for", "statement": "A successful SwapExactAmountIn/SwapToTick has zero swap fee and a valid denom pair, reports and sends exactly one output transfer to the swapper in the requested denom with amount >= token_out_min_amount, and never charges more than token_in: what is neither consumed by fills nor unfillable dust is refunded to the swapper.", "quantifier": "all reachable states, all senders, amounts, denoms, bounds", "why_tests_cant": "Must hold for every book shape and every multi-tick walk.", "anchors": ["contracts/sumtree-orderbook/src/sudo.rs:dispatch_swap_exact_amount_in", "contracts/sumtree-orderbook/src/sudo.rs:validate_output_amount", "contracts/sumtree-orderbook/src/order.rs:run_market_order"]}
{"id": "C15", "title": "Price priority: a swap takes the best price first and skips no liquidity", "statement": "After any successful swap, whenever it consumed liquidity at some tick, every tick of the same book side with a better price has no liquidity left; before any swap, no tick with liquidity lies on the better side of the book's next-tick pointer.", "quantifier": "all reachable states and all swaps", "why_tests_cant": "Depends on the tick pointers being correct after every history.", "anchors": ["contracts/sumtree-orderbook/src/order.rs:run_market_order_internal", "contracts/sumtree-orderbook/src/order.rs:place_limit"]}
{"id": "C16", "title": "Quoted output equals executed output", "statement": "If CalcOutAmtGivenIn answers a positive amount x, then SwapExactAmountIn with the same arguments in the same state, an active book, a sender the bank can pay and minimum <= x succeeds with output exactly x; if the query fails or answers zero (a zero transfer is not possible), the swap fails and changes nothing.", "quantifier": "all reachable states, amounts and denom pairs", "why_tests_cant": "Equality of two code paths over all states; also needs that the liquidity counter can never underflow.", "anchors": ["contracts/sumtree-orderbook/src/query.rs:calc_out_amount_given_in", "contracts/sumtree-orderbook/src/sudo.rs:dispatch_swap_exact_amount_in", "contracts/sumtree-orderbook/src/order.rs:run_market_order"]}
{"id": "C17", "title": "SwapToTick never trades beyond its target tick", "statement": "A successful SwapToTick only changes ticks between the best tick and the target tick (inclusive), so no unit is bought above or sold below the target tick's price; tick states beyond are untouched.", "quantifier": "all reachable states, targets and amounts", "why_tests_cant": "All book shapes.", "anchors": ["contracts/sumtree-orderbook/src/order.rs:run_market_order_internal", "contracts/sumtree-orderbook/src/sudo.rs:sudo"]}
{"id": "C18", "title": "Per-tick exchange in a swap: liquidity removed equals output, charge never below the tick price for the book", "statement": "At each tick a swap touches, the liquidity removed there and the fill counter added there are equal and whole; the output is the sum of these fills; total input consumed never exceeds token_in, and input charged at each tick is the rounded-up value of the fill at the tick price (exact for buys; for sells exact or, only when the tick is emptied, at most 10^-18 below).", "quantifier": "all reachable states and swaps", "why_tests_cant": "Rounding interacts with every price and amount.", "anchors": ["contracts/sumtree-orderbook/src/order.rs:run_market_order_internal"]}
{"id": "C19", "title": "Reported pool liquidity is the true open interest", "statement": "GetTotalPoolLiquidity returns, for each side, exactly the sum over all ticks of the liquidity of that side, which equals the sum of the unfilled quantities of all live orders of that side.", "quantifier": "all reachable states", "why_tests_cant": "A redundant counter maintained by four different operations over unbounded histories.", "anchors": ["contracts/sumtree-orderbook/src/query.rs:total_pool_liquidity", "contracts/sumtree-orderbook/src/state.rs:add_directional_liquidity", "contracts/sumtree-orderbook/src/state.rs:subtract_directional_liquidity"]}
{"id": "C20", "title": "Solvency: the contract can always pay everybody", "statement": "In every reachable state the contract's balance of each of the two denoms is at least the open quantity of all orders deposited in that denom plus the gross proceeds owed on all filled-but-unclaimed orders paid in that denom; hence no sequence of claims and cancels can fail for lack of funds, in any order.", "quantifier": "all histories, including donations, fee changes and swaps by anyone", "why_tests_cant": "Rounding losses could accumulate over unbounded histories; one counterexample among infinitely many histories would suffice.", "anchors": ["contracts/sumtree-orderbook/src/order.rs:claim_order", "contracts/sumtree-orderbook/src/order.rs:cancel_limit", "contracts/sumtree-orderbook/src/order.rs:run_market_order_internal", "contracts/sumtree-orderbook/src/sudo.rs:dispatch_swap_exact_amount_in"]}
{"id": "C21", "title": "The cancellation tree is always a correct, balanced sumtree", "statement": "In every reachable state the tree of each tick/direction holds exactly the cancelled order ranges, in ascending non-overlapping order, every inner node's cached sum, range and height are those of its subtree, parent/child links are consistent, and sibling heights differ by at most one; so the tree of n cancels has height at most logarithmic in n (Fibonacci bound).", "quantifier": "all histories and all ticks/directions", "why_tests_cant": "Tests insert a few hundred nodes; rotations at every shape cannot be enumerated.", "anchors": ["contracts/sumtree-orderbook/src/sumtree/node.rs:insert", "contracts/sumtree-orderbook/src/sumtree/node.rs:split", "contracts/sumtree-orderbook/src/sumtree/node.rs:rebalance", "contracts/sumtree-orderbook/src/sumtree/node.rs:rotate_left", "contracts/sumtree-orderbook/src/sumtree/node.rs:rotate_right"]}
{"id": "C22", "title": "Prefix sum computes the greedy realisation of cancels", "statement": "On every valid sumtree, for every target and previously realised amount that arises, the prefix sum equals the result of walking the cancelled ranges in order and realising each range whose start is not beyond the fill position advanced by what has been realised so far; it reads at most height-many levels and never errors.", "quantifier": "all valid trees, all targets, all previous sums that are realised prefixes", "why_tests_cant": "The single walk with the batching shortcut must agree with an iterated definition for every tree.", "anchors": ["contracts/sumtree-orderbook/src/sumtree/tree.rs:prefix_sum_walk", "contracts/sumtree-orderbook/src/sumtree/tree.rs:get_prefix_sum"]}
{"id": "C23", "title": "Tick invariants: fill position never passes the total placed", "statement": "In every reachable state, for every tick and direction: liquidity, cumulative placed value, fill position and realized cancels are non-negative whole numbers; fill position (even after synchronisation) <= cumulative placed value; liquidity = placed - cancelled - filled; the InvalidTickSync and InvalidPrefixSum guards are unreachable.", "quantifier": "all histories, ticks and directions", "why_tests_cant": "Invariant over unbounded histories.", "anchors": ["contracts/sumtree-orderbook/src/tick.rs:sync_tick", "contracts/sumtree-orderbook/src/types/tick.rs:TickValues"]}
{"id": "C24", "title": "GetUnrealizedCancels predicts the next sync, and sync is idempotent", "statement": "GetUnrealizedCancels never fails for existing ticks and returns exactly the amount by which the next synchronisation advances the fill position and the realised cancels - except that a synchronisation is skipped while the fill position has not moved since the last one, and then counting the announced amount would not change the filled part of any order. Synchronising a second time changes neither liquidity, placed total, fill position nor realised cancels.", "quantifier": "all reachable states, all ticks", "why_tests_cant": "All tree shapes and sync states.", "anchors": ["contracts/sumtree-orderbook/src/query.rs:get_unrealized_cancels", "contracts/sumtree-orderbook/src/tick.rs:sync_tick"]}
{"id": "C25", "title": "An inactive book accepts no trading", "statement": "While the book is inactive, every PlaceLimit, CancelLimit, ClaimLimit, BatchClaim and every sudo message fails and changes nothing; role and fee administration through Auth messages keeps working.", "quantifier": "all states with the switch off, all messages", "why_tests_cant": "All message/state combinations.", "anchors": ["contracts/sumtree-orderbook/src/contract.rs:execute", "contracts/sumtree-orderbook/src/sudo.rs:sudo", "contracts/sumtree-orderbook/src/sudo.rs:ensure_is_active"]}
{"id": "C26", "title": "Governance can always switch the book back on through sudo (refuted)", "statement": "Expected from 'SudoMsg::SetActive': sudo SetActive{active:true} reactivates an inactive book. In fact the sudo entry point rejects every message while inactive, so only admin or moderator can reactivate.", "quantifier": "all inactive states", "why_tests_cant": "A refutation: no inactive state lets the sudo message through.", "anchors": ["contracts/sumtree-orderbook/src/sudo.rs:sudo", "contracts/sumtree-orderbook/src/sudo.rs:set_active"]}
{"id": "C27", "title": "Only the admin administers; roles move only by offer and acceptance", "statement": "Fee rate, fee recipient and offers change only by the current admin (fee recipient/rate never by the moderator), the switch only by admin, moderator or (when active) sudo; through execute messages the admin/moderator changes only when the offered address itself claims or the admin renounces; every other execute message leaves all roles, offers, fees and the switch unchanged.", "quantifier": "all states, senders and messages", "why_tests_cant": "Authorization must hold for every sender and message in every state.", "anchors": ["contracts/sumtree-orderbook/src/auth.rs", "contracts/sumtree-orderbook/src/contract.rs:execute"]}
{"id": "C28", "title": "Renounced adminship is final (refuted)", "statement": "Expected from RenounceAdminship/RemoveAdmin: afterwards nobody can become admin except through sudo. In fact a pending admin offer survives renouncing, sudo RemoveAdmin and sudo TransferAdmin, and the offered address can still claim admin rights (even displacing the admin governance just appointed).", "quantifier": "all states with a pending offer", "why_tests_cant": "Refutation by a concrete reachable history.", "anchors": ["contracts/sumtree-orderbook/src/auth.rs:dispatch_renounce_adminship", "contracts/sumtree-orderbook/src/auth.rs:dispatch_claim_admin", "contracts/sumtree-orderbook/src/auth.rs:update_admin", "contracts/sumtree-orderbook/src/sudo.rs:sudo"]}
{"id": "C29", "title": "The maker fee never exceeds 5% and always has a recipient", "statement": "In every reachable state the maker fee is at most 5%, a fee recipient is set, every stored order's bounty is at most 1%, and both denoms of the book are distinct and never change.", "quantifier": "all histories", "why_tests_cant": "Invariant over unbounded histories.", "anchors": ["contracts/sumtree-orderbook/src/orderbook.rs:set_maker_fee", "contracts/sumtree-orderbook/src/orderbook.rs:create_orderbook", "contracts/sumtree-orderbook/src/auth.rs:dispatch_set_maker_fee"]}
{"id": "C30", "title": "OrdersByOwner returns exactly the owner's live orders, paged in key order", "statement": "For every owner, bounds and limit below 2^32 the result is the first `limit` (default 100) of the owner's live orders within the inclusive bounds in (tick, id) order, count is the owner's total number of live orders, and following pages with exclusive continuation enumerate every order exactly once. A limit that is a multiple of 2^32 returns an empty page (usize truncation on wasm32).", "quantifier": "all states, owners, bounds and limits", "why_tests_cant": "All stores and page boundaries.", "anchors": ["contracts/sumtree-orderbook/src/query.rs:orders_by_owner", "contracts/sumtree-orderbook/src/state.rs:get_orders_by_owner"]}
{"id": "C31", "title": "OrdersByTick returns exactly the tick's live orders in order", "statement": "The result is the first `limit` live orders of the tick with ids in the inclusive bounds, ascending; count is their number before the limit; without a limit all of them are returned.", "quantifier": "all states, ticks, bounds and limits", "why_tests_cant": "All stores and page boundaries.", "anchors": ["contracts/sumtree-orderbook/src/query.rs:orders_by_tick"]}
{"id": "C32", "title": "AllTicks / TicksById report the stored ticks faithfully", "statement": "AllTicks returns the ticks within inclusive bounds in ascending order with their states, truncated to the limit; TicksById returns the requested ticks in request order or fails if one does not exist.", "quantifier": "all states, bounds, limits and id lists", "why_tests_cant": "All stores.", "anchors": ["contracts/sumtree-orderbook/src/query.rs:all_ticks", "contracts/sumtree-orderbook/src/query.rs:ticks_by_id"]}
{"id": "C33", "title": "Spot price is a bound on the best available price (best price with liquidity: refuted)", "statement": "SpotPrice never fails for the book's pair, and it is at least as good as the price of any tick that has liquidity on that side. The documented stronger claim - that it is the price of the best tick with liquidity - is false: after a cancel the reported price can belong to a tick with no liquidity at all.", "quantifier": "all reachable states, both pair orders", "why_tests_cant": "Depends on pointer maintenance over all histories.", "anchors": ["contracts/sumtree-orderbook/src/query.rs:spot_price", "contracts/sumtree-orderbook/src/order.rs:run_market_order_internal"]}
{"id": "C34", "title": "A funded swap against sufficient liquidity executes (buy side holds, sell side refuted)", "statement": "A market buy (quote in) that is worth at least one unit at some resting ask and whose input can be absorbed by the resting asks always succeeds with the quoted output. The analogous statement for market sells is false: one resting bid of a single quote unit at a tick with price above 10^18 makes every market sell fail, whatever other bids rest in the book.", "quantifier": "all reachable states and amounts", "why_tests_cant": "Liveness over all states; the counterexample sits at extreme prices no test uses.", "anchors": ["contracts/sumtree-orderbook/src/order.rs:run_market_order_internal"]}
{"id": "C35", "title": "Who claims, and in which order, does not matter for what the orders were filled", "statement": "Claims never change any other order's filled or open quantity, nor any liquidity; the owner's payout and the fee do not depend on who sends the claim; claiming two different orders in either order settles the same amounts.", "quantifier": "all reachable states, pairs of orders, senders", "why_tests_cant": "All interleavings of third-party claims.", "anchors": ["contracts/sumtree-orderbook/src/order.rs:claim_order", "contracts/sumtree-orderbook/src/tick.rs:sync_tick"]}
{"id": "C36", "title": "Ticks and directions are isolated", "statement": "Placing, cancelling or claiming at one tick/direction changes no order, fill, or liquidity at any other tick or at the other direction of the same tick, and a swap changes only the opposite side's ticks it fills.", "quantifier": "all reachable states and operations", "why_tests_cant": "Both directions of a tick share the node id space and storage map; aliasing could only show up in particular histories.", "anchors": ["contracts/sumtree-orderbook/src/sumtree/node.rs", "contracts/sumtree-orderbook/src/sumtree/tree.rs", "contracts/sumtree-orderbook/src/order.rs", "contracts/sumtree-orderbook/src/tick.rs"]}
{"id": "C37", "title": "Unsupported operations abort", "statement": "SwapExactAmountOut and CalcInAmtGivenOut always abort the transaction/query; no state changes.", "quantifier": "all states and arguments", "why_tests_cant": "All arguments.", "anchors": ["contracts/sumtree-orderbook/src/sudo.rs:dispatch_swap_exact_amount_out", "contracts/sumtree-orderbook/src/contract.rs:query"]}
{"id": "C38", "title": "Instantiation establishes a sane empty book", "statement": "Instantiate succeeds only for two distinct denoms with positive supply and valid built-in addresses, and yields an active, empty book (every valid order is accepted at once) with zero fee, governance as admin and the circuit-breaker DAO as moderator, no pending offers.", "quantifier": "all denom pairs, supplies and environments", "why_tests_cant": "All environments.", "anchors": ["contracts/sumtree-orderbook/src/contract.rs:instantiate", "contracts/sumtree-orderbook/src/orderbook.rs:create_orderbook"]}
{"id": "C39", "title": "Order records keep their identity", "statement": "From placement to removal an order's id, tick, direction, owner, bounty, placed quantity and timestamp never change; its open quantity never grows and stays positive while it exists.", "quantifier": "all histories, all orders", "why_tests_cant": "All histories.", "anchors": ["contracts/sumtree-orderbook/src/types/order.rs:LimitOrder", "contracts/sumtree-orderbook/src/order.rs:claim_order"]}
{"id": "C40", "title": "Unconsumed swap input is refunded or worthless", "statement": "When a swap keeps input that bought nothing, that input is worth zero output units at the best remaining tick; any input that would still buy something is refunded (bounded swap) or makes an unbounded swap fail for insufficient liquidity.", "quantifier": "all reachable states and swaps", "why_tests_cant": "All book shapes and amounts.", "anchors": ["contracts/sumtree-orderbook/src/order.rs:run_market_order_internal", "contracts/sumtree-orderbook/src/sudo.rs:dispatch_swap_exact_amount_in"]}
{"id": "C41", "title": "Queries are answered on every reachable book", "statement": "Whatever happened before, and also while the book is inactive: SpotPrice answers for exactly the book's two denoms; TicksById and GetUnrealizedCancels answer exactly if every requested tick was ever used; GetTotalPoolLiquidity answers exactly if both open totals fit in 128 bits; AllTicks, OrdersByOwner, OrdersByTick, IsActive, GetSwapFee, GetMakerFee, Denoms, OrderbookState and the auth queries always answer.", "quantifier": "all histories and all query arguments", "why_tests_cant": "A query panic (e.g. in the prefix-sum walk) depends on the tree shape the whole history produced.", "anchors": ["contracts/sumtree-orderbook/src/contract.rs:query", "contracts/sumtree-orderbook/src/query.rs:ticks_unrealized_cancels_by_id", "contracts/sumtree-orderbook/src/query.rs:total_pool_liquidity"]}
{"id": "C42", "title": "Events and attributes alone reproduce the order table", "statement": "A listener that reads only the attributes and events of successful transactions (never storage, calls or senders) always knows exactly the live orders, their owners, directions, placed and remaining quantities. The announced denoms, amounts and fully_claimed flag are those of the actual operation, and a swap announces the output it pays.", "quantifier": "all histories", "why_tests_cant": "The announcement of a claim or cancel depends on fills made by any number of earlier swaps; every interleaving counts.", "anchors": ["contracts/sumtree-orderbook/src/order.rs:place_limit", "contracts/sumtree-orderbook/src/order.rs:cancel_limit", "contracts/sumtree-orderbook/src/order.rs:claim_order", "contracts/sumtree-orderbook/src/order.rs:batch_claim_limits", "contracts/sumtree-orderbook/src/sudo.rs:dispatch_swap_exact_amount_in"]}
{"id": "C43", "title": "Settings are what the last successful setting call said", "statement": "At any time the active flag, maker fee, fee recipient, admin, moderator and the pending offers are exactly what the last successful call about that setting said, or the initial value if there was none; no other call, in particular no order, claim, swap or failed call, changes them.", "quantifier": "all histories of executes, sudos and migrations", "why_tests_cant": "A hidden write to one of seven singleton items in any other path would need that path's history to show.", "anchors": ["contracts/sumtree-orderbook/src/auth.rs", "contracts/sumtree-orderbook/src/sudo.rs:set_active", "contracts/sumtree-orderbook/src/state.rs", "contracts/sumtree-orderbook/src/contract.rs:instantiate"]}
{"id": "C44", "title": "More input never buys less", "statement": "In any reachable state, of two quotes (or two accepted swaps with the same target tick) in the same direction, the one with the larger input yields at least the output of the other.", "quantifier": "all reachable states, all pairs of amounts, all targets", "why_tests_cant": "Rounding at each tick could break monotonicity for particular books and amounts only.", "anchors": ["contracts/sumtree-orderbook/src/order.rs:run_market_order_internal", "contracts/sumtree-orderbook/src/tick_math.rs:amount_to_value", "contracts/sumtree-orderbook/src/query.rs:calc_out_amount_given_in"]}
{"id": "C45", "title": "Splitting a swap never pays", "statement": "Two consecutive swaps with the same target never yield more in total than one swap of the combined input would have; likewise a swap followed by a quote of the remainder.", "quantifier": "all reachable states, all splits, all targets", "why_tests_cant": "Rounding direction and repeated rounding over any number of ticks.", "anchors": ["contracts/sumtree-orderbook/src/order.rs:run_market_order_internal", "contracts/sumtree-orderbook/src/tick_math.rs:amount_to_value"]}
{"id": "C46", "title": "No free money on an uncrossed book", "statement": "If in a reachable state every open bid lies below every open ask, then no sequence of swaps, in any directions and amounts and by any number of accounts together, leaves the contract with no more of either denom while changing anything: the traders as a whole always part with a positive amount of at least one denom. (On a crossed book, which the contract allows, a round trip can gain; a concrete case shows it.)", "quantifier": "all reachable uncrossed states, all sequences of swaps, successful or not", "why_tests_cant": "All books and all interleavings of buys and sells; the rounding at each tick could favour the trader in rare combinations.", "anchors": ["contracts/sumtree-orderbook/src/order.rs:run_market_order_internal", "contracts/sumtree-orderbook/src/sudo.rs:dispatch_swap_exact_amount_in", "contracts/sumtree-orderbook/src/tick_math.rs:amount_to_value"]}
{"id": "C47", "title": "Transfers are all or nothing", "statement": "A successful transaction made every transfer its response asks for, in full, to an account that may receive it, and the contract's balances changed by exactly the funds received minus those transfers. If the code accepts a call but one of its transfers is refused (blocked recipient, zero amount), the whole transaction has no effect: no order is consumed and no other party is paid. Lack of funds is never the reason.", "quantifier": "all reachable states, calls and sets of blocked accounts", "why_tests_cant": "A batch can contain any number of transfers in any order; which one fails depends on the chain, not on the contract.", "anchors": ["contracts/sumtree-orderbook/src/contract.rs:reply", "contracts/sumtree-orderbook/src/order.rs:claim_order", "contracts/sumtree-orderbook/src/order.rs:batch_claim_limits", "contracts/sumtree-orderbook/src/sudo.rs:dispatch_swap_exact_amount_in"]}
{"id": "C48", "title": "Donations are ignored", "statement": "Coins sent to the contract's address outside its code never change any later outcome, payment or stored data: a history with them and the same history without them agree on everything but the balance, which differs by exactly what was sent.", "quantifier": "all reachable states and histories, any denoms and amounts of donations", "why_tests_cant": "A dependence on the raw balance anywhere in the code would show only for particular histories.", "anchors": ["contracts/sumtree-orderbook/src/order.rs", "contracts/sumtree-orderbook/src/sudo.rs", "contracts/sumtree-orderbook/src/contract.rs"]}
{"id": "C49", "title": "An order earns its price over its whole life", "statement": "However an order is filled and claimed, in however many pieces and by whomever, the amounts announced as paid to its owner add up to at most the worth of its claimed quantity at its limit price, and to at least 94% of that worth less one unit per claim. In particular an order that was filled and claimed completely earned that for its full placed quantity.", "quantifier": "all histories, all orders, any number of partial fills and claims", "why_tests_cant": "Errors in the fill position could pay the same units twice or skip units, spread over any number of claims.", "anchors": ["contracts/sumtree-orderbook/src/order.rs:claim_order", "contracts/sumtree-orderbook/src/order.rs:batch_claim_limits", "contracts/sumtree-orderbook/src/tick_math.rs:amount_to_value"]}
{"id": "C50", "title": "The contract is this machine", "statement": "There is a small executable machine whose state is just the two tokens, the settings, the next order id and the list of orders that are not yet cancelled or fully claimed (with what is still open and what is filled but unclaimed), and which has no running totals, cancellation records, best-price pointers or liquidity counters. For every transaction, in every history, the contract succeeds exactly when the machine does, with exactly the same attributes, events, transfers (recipient, token, amount, order) and returned data; afterwards it stores exactly the machine's orders, settings and next id, each tick's liquidity is the sum of the open parts of the machine's orders there, and an out-amount query answers exactly what the machine answers.", "quantifier": "all initial tokens and environments, all well-typed transaction histories of up to 2^56 transactions (successful or failing, any senders, funds, times, blocked recipients), all out-amount queries", "why_tests_cant": "Equality of two programs on all histories; a unit test compares a handful of hand-written traces and cannot see a divergence that needs a particular interleaving of placements, partial fills, cancellations and claims on one tick", "anchors": ["contracts/sumtree-orderbook/src/contract.rs:execute", "contracts/sumtree-orderbook/src/contract.rs:sudo", "contracts/sumtree-orderbook/src/contract.rs:instantiate", "contracts/sumtree-orderbook/src/order.rs:place_limit", "contracts/sumtree-orderbook/src/order.rs:cancel_limit", "contracts/sumtree-orderbook/src/order.rs:claim_limit", "contracts/sumtree-orderbook/src/order.rs:batch_claim_limits", "contracts/sumtree-orderbook/src/order.rs:run_market_order", "contracts/sumtree-orderbook/src/sudo.rs:dispatch_swap_exact_amount_in", "contracts/sumtree-orderbook/src/auth.rs:dispatch", "contracts/sumtree-orderbook/src/query.rs:calc_out_amount_given_in", "contracts/sumtree-orderbook/src/tick.rs:sync_tick"]}
{"id": "C51", "title": "A withdrawn order leaves no trace", "statement": "Take any history and insert one order that is later cancelled, with any calls other than swaps in between. Apart from the order ids (every order placed afterwards has the next id), all other calls of the two histories have exactly the same outcomes, before and after the cancellation: the same are accepted, with the same attributes, events, transfers and returned data, and the contract ends with the same balances. So placing and withdrawing an order cannot change the fills, quotes, payouts or fees of anybody else, however many orders are placed, cancelled and claimed meanwhile.", "quantifier": "all histories before, in between (without swaps) and after, all extra orders (tick, direction, size, bounty, owner), all environments", "why_tests_cant": "The withdrawn order leaves permanent records in the tree of cancelled ranges and in the cumulative counters of its tick; that these have no effect on any future call is a claim about all continuations and all tree shapes.", "anchors": ["contracts/sumtree-orderbook/src/order.rs:place_limit", "contracts/sumtree-orderbook/src/order.rs:cancel_limit", "contracts/sumtree-orderbook/src/order.rs:claim_order", "contracts/sumtree-orderbook/src/order.rs:run_market_order", "contracts/sumtree-orderbook/src/tick.rs:sync_tick"]}
{"id": "C52", "title": "Only the numbers matter", "statement": "Names carry no meaning: rename accounts and tokens one-to-one throughout a history (keeping the three addresses built into the contract), choose another address for the contract and other block times and token supplies, and every call has the same outcome up to the renaming: the same calls are accepted, the same amounts go to the renamed recipients, with the same attributes, events and data, and the contract's balances move alike. In particular block times never influence any outcome, and no account other than the current admin, moderator, offer and fee recipient ones is treated specially.", "quantifier": "all one-to-one renamings of accounts and of tokens, all pairs of instantiations, all histories, all environments that agree on validity and blocking of the renamed addresses", "why_tests_cant": "It compares every possible history with every renamed copy of it; special treatment of one name, an ordering by name or a dependence on the clock would show up only in the histories that meet it.", "anchors": ["contracts/sumtree-orderbook/src/contract.rs:execute", "contracts/sumtree-orderbook/src/sudo.rs:sudo", "contracts/sumtree-orderbook/src/order.rs:place_limit", "contracts/sumtree-orderbook/src/order.rs:claim_order", "contracts/sumtree-orderbook/src/auth.rs:dispatch", "contracts/sumtree-orderbook/src/state.rs:orders"]}
{"id": "C53", "title": "Books that look the same have the same future", "statement": "What can be read off the book determines everything that can happen next. If two books - of whatever pasts, even of different contracts - have the same tokens and settings, the same next order id, the same orders (tick, id, direction, owner, remaining quantity, bounty, placed quantity and time) and the same liquidity at every tick, then every further sequence of calls has exactly the same outcomes in both. The cumulative counters of the ticks, the start positions of the orders, the trees of cancelled ranges and the best-price pointers have no influence of their own.", "quantifier": "all pairs of histories that lead to books that look alike, all continuations, all environments", "why_tests_cant": "It relates all pairs of histories and all futures of both; a stale counter, pointer or tree node shows only in the continuations that read it.", "anchors": ["contracts/sumtree-orderbook/src/state.rs:orders", "contracts/sumtree-orderbook/src/state.rs:TICK_STATE", "contracts/sumtree-orderbook/src/tick.rs:sync_tick", "contracts/sumtree-orderbook/src/order.rs:claim_order", "contracts/sumtree-orderbook/src/order.rs:run_market_order", "contracts/sumtree-orderbook/src/sumtree/tree.rs:get_prefix_sum"]}
{"id": "C54", "title": "Managing different orders commutes", "statement": "Two calls by which orders are placed, cancelled, claimed or batch-claimed, by whomever and at whichever ticks, that concern different orders can be executed in either order: each has the same outcome (acceptance or refusal, attributes, events, transfers) whether it comes first or second, and the books and balances afterwards look the same - so the order of such transactions within a block cannot be exploited against anybody.", "quantifier": "all histories, all pairs of order-managing calls on different orders (two placements concern the same next id and are the only excluded pair of kinds), all environments", "why_tests_cant": "It compares both interleavings of every pair of calls in every reachable state, including calls on neighbouring orders of the same tick whose bookkeeping shares the tick counters and the cancellation tree.", "anchors": ["contracts/sumtree-orderbook/src/order.rs:place_limit", "contracts/sumtree-orderbook/src/order.rs:cancel_limit", "contracts/sumtree-orderbook/src/order.rs:claim_limit", "contracts/sumtree-orderbook/src/order.rs:batch_claim_limits", "contracts/sumtree-orderbook/src/tick.rs:sync_tick", "contracts/sumtree-orderbook/src/sumtree/node.rs:insert"]}
{"id": "C55", "title": "Time priority", "statement": "Of two orders resting at the same tick and direction, the later one is filled only when nothing of the earlier one is waiting any more. Seen from outside: once a claim of the later order was announced, the earlier one can never again be cancelled, and a claim of it pays it off completely.", "quantifier": "all histories of the contract, all ticks, directions and pairs of orders, any further calls in between", "why_tests_cant": "Every interleaving of placements, swaps, cancels and claims has to respect the queue; tests fix one.", "anchors": ["contracts/sumtree-orderbook/src/order.rs:claim_limit", "contracts/sumtree-orderbook/src/order.rs:cancel_limit", "contracts/sumtree-orderbook/src/order.rs:run_market_order_internal", "contracts/sumtree-orderbook/src/tick.rs:sync_tick"]}
{"id": "C56", "title": "Depth beyond the marginal price does not matter", "statement": "Take any two books of the same pair of tokens, with any histories, both trading. If on the side a swap trades against they offer the same amounts at every tick that is at least as good for the taker as some tick T, and the swap succeeds in the first book without using up T, then the same swap succeeds in the second book with the same reported output, the same attributes and the same payment to the taker, whatever target tick at or beyond T is given; it takes the same amounts from the same ticks and leaves all ticks beyond T alone. Who placed the orders, how many there are, what waits behind T or on the other side, which fees, roles or donations exist makes no difference; at most the hand-back of left-over input differs, by an amount that would not buy one unit at T.", "quantifier": "all pairs of histories, swap requests, target ticks and marginal ticks T", "why_tests_cant": "Independence of everything behind the marginal price is a relation between two runs over unboundedly many books; tests compare a few books.", "anchors": ["contracts/sumtree-orderbook/src/order.rs:run_market_order_internal", "contracts/sumtree-orderbook/src/sudo.rs:dispatch_swap_exact_amount_in", "contracts/sumtree-orderbook/src/types/tick.rs:TickValues"]}
{"id": "C57", "title": "The spot price follows placements and fills, nothing else", "statement": "OrderbookState shows the two tokens, current tick 0 and a best-bid and a best-ask tick; SpotPrice is the price of that tick (its inverse for asks). The two ticks start at the ends of the tick range. A successful bid placement raises the bid tick to the order's tick if that is higher, an ask placement lowers the ask tick likewise. A successful swap sets the tick of the side it traded against to the worst-priced tick it took liquidity from and leaves the other alone - so the spot price right after a swap is the marginal price of that swap, and nothing better is on offer. Claims, cancellations, administration, migration, deposits and failed transactions move neither.", "quantifier": "all reachable states and all successful transactions", "why_tests_cant": "The pointers are state carried through every history; a pointer that is not moved by some path leaves all trading correct and shows only in the spot price, later.", "anchors": ["contracts/sumtree-orderbook/src/order.rs:run_market_order_internal", "contracts/sumtree-orderbook/src/order.rs:place_limit", "contracts/sumtree-orderbook/src/query.rs:spot_price", "contracts/sumtree-orderbook/src/query.rs:orderbook_state", "contracts/sumtree-orderbook/src/types/orderbook.rs:Orderbook"]}
{"id": "C58", "title": "An order has no influence on those before it in the queue", "statement": "Compare a history with the same history in which one more limit order was placed at some point (all ids given out later are then one higher), and call ahead of it the orders of the other direction, those at a better price for takers and the older ones at its tick. As long as the same of the later swaps and batch claims are accepted in both, the claim events of the orders ahead are the same in both histories, every order ahead that still exists has the same direction, owner, bounty, time and quantities, claiming or cancelling it by anybody has exactly the same answer, transfers included, and the liquidity of every tick with a better price and of the whole other side is the same.", "quantifier": "all histories from instantiation with the extra order anywhere in them, all later placements, cancellations, claims, batches, swaps with and without price limit, settings changes, donations and migrations, all bank and address behaviours", "why_tests_cant": "a two-run property over unbounded histories: tests can compare single examples, not every interleaving of fills, claims and cancellations behind the orders in question", "anchors": ["contracts/sumtree-orderbook/src/order.rs:place_limit", "contracts/sumtree-orderbook/src/order.rs:run_market_order_internal", "contracts/sumtree-orderbook/src/order.rs:claim_order", "contracts/sumtree-orderbook/src/order.rs:cancel_limit", "contracts/sumtree-orderbook/src/sumtree/tree.rs:get_prefix_sum"]}
{"id": "C59", "title": "All that the contract holds is owed, given or rounding", "statement": "At every point of every history the balance of the contract in each of its two tokens equals, exactly, the sum of: what it held at creation; what the book owes in that token without rounding (the unfilled deposits and the exact worth, quantity times or divided by the tick price, of the filled but unclaimed parts); and one amount for each successful transaction: zero for placing and cancelling; for a claim the part below one unit that rounding down its proceeds drops, plus the transfers the contract made to itself as fee recipient; for a swap nothing in the token it pays out, and in the token it takes less than one unit for each tick whose liquidity it reduced (at worst 10^-18 too little) plus an input remainder that buys nothing at any tick that still offers something; for gifts and funds attached to administrative messages exactly these. So no coin is ever stranded or created other than by these roundings.", "quantifier": "all contracts created by instantiate, all histories of well-typed calls, both tokens", "why_tests_cant": "a test compares balances after a handful of calls; here the exact decomposition of the balance must hold after every history, over all roundings accumulated so far", "anchors": ["contracts/sumtree-orderbook/src/order.rs:place_limit", "contracts/sumtree-orderbook/src/order.rs:cancel_limit", "contracts/sumtree-orderbook/src/order.rs:claim_order", "contracts/sumtree-orderbook/src/order.rs:run_market_order_internal", "contracts/sumtree-orderbook/src/sudo.rs:dispatch_swap_exact_amount_in", "contracts/sumtree-orderbook/src/tick_math.rs:amount_to_value"]}
{"id": "C60", "title": "What a taker pays lies between the spot prices before and after", "statement": "For every successful swap, let n be the number of ticks whose liquidity it reduced. The input it is charged (the input sent, less the refund and less a remainder that buys nothing at any tick that still has liquidity) is at least the exact worth of the output at the spot price shown before the swap (when selling: up to n times 10^-18 of a unit), and exceeds the exact worth of the output at the spot price shown after the swap, and for SwapToTick at the price of the target tick, by less than n units. Makers are never passed over for less than the price on display, and takers never pay more than the last price on display plus rounding.", "quantifier": "all reachable books, both directions, all amounts, with and without a target tick", "why_tests_cant": "the bound involves every tick a swap crosses and all roundings; tests use a few ticks at round prices", "anchors": ["contracts/sumtree-orderbook/src/order.rs:run_market_order_internal", "contracts/sumtree-orderbook/src/sudo.rs:dispatch_swap_exact_amount_in", "contracts/sumtree-orderbook/src/sudo.rs:sudo", "contracts/sumtree-orderbook/src/query.rs:spot_price"]}
{"id": "C61", "title": "The price of an amount", "statement": "For every amount x of base tokens not larger than what rests in asks, there is a computable price: take x from the ask ticks, cheapest first, and add up the charge of every tick (quantity times price, rounded up). A buy of exactly that price is quoted at least x, every buy that is quoted at least x pays at least that price, and the price of everything on offer buys exactly everything on offer.", "quantifier": "all reachable books, all amounts up to the resting asks, all inputs", "why_tests_cant": "The least sufficient input over all inputs and all books cannot be found by trying inputs.", "anchors": ["contracts/sumtree-orderbook/src/order.rs:run_market_order_internal", "contracts/sumtree-orderbook/src/query.rs:calc_out_amount_given_in", "contracts/sumtree-orderbook/src/tick_math.rs:amount_to_value"]}
{"id": "C62", "title": "More depth helps a buyer, up to one unit per tick (exact monotonicity refuted)", "statement": "If one book has at least as much ask liquidity as another at every tick, then whatever amount an input buys in the first can be bought in the second for at most n-1 quote units more, where n is the number of ask ticks needed there. Without the n-1 units the claim is false: one more unit at a better price can make the same input buy less.", "quantifier": "all pairs of reachable books ordered by ask liquidity, all inputs", "why_tests_cant": "Compares two arbitrary books and the rounding at every tick of both.", "anchors": ["contracts/sumtree-orderbook/src/order.rs:run_market_order_internal", "contracts/sumtree-orderbook/src/query.rs:calc_out_amount_given_in", "contracts/sumtree-orderbook/src/tick_math.rs:amount_to_value"]}
{"id": "C63", "title": "Paging stays correct while the book is traded", "statement": "A client reads an owner's orders page by page, each request starting right after the last order received, until an empty page, while arbitrary transactions run between the requests. It never receives an order twice, everything it receives was a live order of that owner at one of its requests, in key order, and every order that is live at the first and at the last request is received.", "quantifier": "all reachable books, all interleavings of requests with arbitrary transactions, all page lengths", "why_tests_cant": "Quantifies over all interleavings of page requests and transactions.", "anchors": ["contracts/sumtree-orderbook/src/query.rs:orders_by_owner", "contracts/sumtree-orderbook/src/state.rs:get_orders_by_owner"]}
{"id": "C64", "title": "Deleting a tree node removes exactly that range", "statement": "TreeNode::delete on any leaf of a stored cancellation tree (inner nodes may have one or two children) succeeds; afterwards the tree holds exactly the other ranges in the same order, every ancestor's sum, bounds and weight are those of what is left, ancestors left without children are gone, the root keeps its id, and no other stored record changes. The prefix sum on such trees is still the greedy realisation of the remaining ranges. The trees of all reachable books are of this kind.", "quantifier": "all trees of any size with one- or two-child inner nodes, all leaves, all fill positions; all histories", "why_tests_cant": "every tree shape and every leaf position; tests delete from a few trees", "anchors": ["contracts/sumtree-orderbook/src/sumtree/node.rs:delete", "contracts/sumtree-orderbook/src/sumtree/node.rs:sync_range_and_value_up", "contracts/sumtree-orderbook/src/sumtree/tree.rs:prefix_sum_walk"]}
{"id": "C65", "title": "The work of a call does not grow with the book", "statement": "The number of stored entries a call changes is bounded: placing an order changes at most five, claiming one at most six (a batch claim: six per order named, and no more than 100 orders can be named), a governance call at most two, a migration or a plain transfer none, whatever the book holds. Cancelling an order changes at most 32*log2(n)+30 entries, n being the number of orders cancelled before at the same tick and side, in whatever order they were cancelled. A swap changes one entry per price level it fills plus two, and touches no order record, however many orders it fills.", "quantifier": "every successful call in every state (cancels and swaps: every reachable state), every history", "why_tests_cant": "a unit test measures one call on one small book; that no history makes a cancel linear in the number of cancelled orders needs the balance of the tree in every reachable state", "anchors": ["contracts/sumtree-orderbook/src/order.rs:place_limit", "contracts/sumtree-orderbook/src/order.rs:cancel_limit", "contracts/sumtree-orderbook/src/order.rs:claim_order", "contracts/sumtree-orderbook/src/order.rs:run_market_order", "contracts/sumtree-orderbook/src/sumtree/node.rs:insert", "contracts/sumtree-orderbook/src/sumtree/node.rs:rebalance", "contracts/sumtree-orderbook/src/sumtree/node.rs:rotate_left", "contracts/sumtree-orderbook/src/tick.rs:sync_tick"]}
{"id": "C66", "title": "A swap with a minimum executes exactly when its input covers the price of the minimum", "statement": "On either side of the book an amount x of the output token, not larger than what the makers offer, has a computable price: take it from the ticks in turn, best first; every tick used up costs what a taker is charged for all of it, and the rest at the last tick costs the least input that is worth the rest there. Whenever an input q is quoted, the quote is at least x exactly if q is at least the price of x. And when the book is active, the sender can be paid and q is within what the whole side can absorb, a SwapExactAmountIn of q with minimum x executes exactly if q is at least the price of x - for sells provided that no resting bids are worth less than 10^-18 base units (only possible at prices above 10^18, see C34).", "quantifier": "all reachable books, both sides, all inputs, all minimum outputs up to what is on offer", "why_tests_cant": "the equivalence compares two different computations over all books and amounts, including every rounding boundary", "anchors": ["contracts/sumtree-orderbook/src/order.rs:run_market_order_internal", "contracts/sumtree-orderbook/src/sudo.rs:dispatch_swap_exact_amount_in", "contracts/sumtree-orderbook/src/query.rs:calc_out_amount_given_in", "contracts/sumtree-orderbook/src/tick_math.rs:amount_to_value"]}
{"id": "C67", "title": "The book stores nothing it does not need", "statement": "In every reachable state every stored tree node can be reached from the root of the tree of its tick and direction (nothing is leaked by inserting and rebalancing); a tick side with n cancelled orders stores exactly 2n-1 nodes (two for n = 1, none for n = 0), so all trees together hold at most two nodes per successful cancel; the stored orders are one for one the live orders (placed, neither cancelled nor fully claimed), and the stored ticks are exactly the ticks that were ever used. Claimed and cancelled orders leave nothing behind but that.", "quantifier": "all histories, all ticks and directions", "why_tests_cant": "a leak of one node per rotation or per insertion case changes no answer and no payment; only a count over every history exposes it", "anchors": ["contracts/sumtree-orderbook/src/sumtree/node.rs:insert", "contracts/sumtree-orderbook/src/sumtree/node.rs:rebalance", "contracts/sumtree-orderbook/src/sumtree/tree.rs:get_or_init_root_node", "contracts/sumtree-orderbook/src/order.rs:cancel_limit", "contracts/sumtree-orderbook/src/order.rs:claim_order", "contracts/sumtree-orderbook/src/state.rs:orders"]}
{"id": "C68", "title": "A refused call says why", "statement": "After any history, every transaction is answered exactly as a short list of checks on the observable book says: it is accepted by the entry point if all checks pass, and otherwise refused with the error of the first check that fails (inactive contract, unexpected or missing payment, unknown tick or order, wrong owner, order already filled, nothing to claim, batch too long, bad swap fee, same or unknown tokens, zero amount, target out of range or better than the best price, not enough liquidity, output below the minimum, role violation, fee above 5%, bad address). Setting up a book and every query answer the same way. No other error ever occurs: no overflow, no missing internal data, no corrupted tree; and nothing panics except the unimplemented SwapExactAmountOut and CalcInAmtGivenOut, and the pool-liquidity query when more than 2^128 - 1 units are open on one side.", "quantifier": "all histories up to 2^56 transactions, all environments, all well-typed transactions with any arguments, all token pairs", "why_tests_cant": "a test pins down one error for one state; that no check is shadowed by another one, that no arithmetic or internal error can surface, and that the order of checks is as specified must hold in every reachable state", "anchors": ["contracts/sumtree-orderbook/src/contract.rs:execute", "contracts/sumtree-orderbook/src/sudo.rs:dispatch_swap_exact_amount_in", "contracts/sumtree-orderbook/src/sudo.rs:validate_output_amount", "contracts/sumtree-orderbook/src/order.rs:place_limit", "contracts/sumtree-orderbook/src/order.rs:cancel_limit", "contracts/sumtree-orderbook/src/order.rs:claim_order", "contracts/sumtree-orderbook/src/order.rs:batch_claim_limits", "contracts/sumtree-orderbook/src/order.rs:run_market_order_internal", "contracts/sumtree-orderbook/src/auth.rs:dispatch", "contracts/sumtree-orderbook/src/orderbook.rs:create_orderbook", "contracts/sumtree-orderbook/src/query.rs:calc_out_amount_given_in", "contracts/sumtree-orderbook/src/query.rs:total_pool_liquidity", "contracts/sumtree-orderbook/src/error.rs:ContractError"]}
{"id": "C69", "title": "What a call depends on, and the swap that cannot be kept cheap", "statement": "A transaction depends on few stored entries: placing an order on at most five, an administration message on at most two, a governance message on one; a claim or a cancel on a number logarithmic in how many orders were cancelled at that tick before, a batch on the sum of its claims - whatever all other entries hold, the call gives the same response, moves the same coins and writes the same values. A swap depends only on the switch, the book item, the total of the side it takes and the ticks of that side between the best-price pointer and its target. But it does depend on each known tick from the pointer to every tick it fills, empty or not: so anyone who can place and take back a one-unit order can, by 2n calls that leave every order, amount on offer, balance and setting as it was, make the next successful swap against the chosen side depend on n entries.", "quantifier": "all histories of calls from any instantiation, all calls, senders, amounts, ticks and order ids, all contents of the other storage entries, all n up to the number of ticks", "why_tests_cant": "A test can measure the gas of one call in one book; that the call would have run the same whatever any other entry held, and that no implementation of the same outcome could look at fewer, are statements about all storages and all histories.", "anchors": ["contracts/sumtree-orderbook/src/order.rs:place_limit", "contracts/sumtree-orderbook/src/order.rs:cancel_limit", "contracts/sumtree-orderbook/src/order.rs:claim_limit", "contracts/sumtree-orderbook/src/order.rs:batch_claim_limits", "contracts/sumtree-orderbook/src/order.rs:run_market_order_internal", "contracts/sumtree-orderbook/src/sumtree/tree.rs:get_prefix_sum", "contracts/sumtree-orderbook/src/tick.rs:sync_tick", "contracts/sumtree-orderbook/src/contract.rs:sudo"]}
{"id": "C70", "title": "Stored entries never share a raw key, and scans see exactly what they should", "statement": "No two things the contract stores (settings, ticks, orders, tree nodes, counters, the two index entries of each order, the cw2 version) ever share a key of the chain's key-value store. Byte order of the keys is numeric order: negative ticks come before positive ones, orders of one tick come in order of id, index entries of one owner in order of tick and id. A range scan of the raw store behind the prefix of the ticks, of the orders of one tick, of the orders of one owner, or of the orders of one owner at one tick, between any bounds, returns exactly the sorted list that the queries and swaps work on, and nothing of another map, tick or owner, not even of an owner whose name begins with the name of this one. Whatever orders are saved, saved over and removed, the index entries in the store are exactly those of the orders in the store.", "quantifier": "all pairs of storable entries with ticks in i64, ids in u64 and addresses under 65536 bytes; all reachable states; all bounds; all sequences of saves and removals", "why_tests_cant": "a key collision or a wrong order of keys shows only for particular pairs of keys (sign of the tick, name of the owner, length of a part); tests try a few", "anchors": ["contracts/sumtree-orderbook/src/state.rs:orders", "contracts/sumtree-orderbook/src/state.rs:TICK_STATE", "contracts/sumtree-orderbook/src/state.rs:get_orders_by_owner", "contracts/sumtree-orderbook/src/state.rs:get_orders_by_tick", "contracts/sumtree-orderbook/src/auth.rs:ADMIN", "contracts/sumtree-orderbook/src/sumtree/node.rs:NODES", "contracts/sumtree-orderbook/src/sumtree/tree.rs:TREE"]}
{"id": "C71", "title": "What is written can be read back", "statement": "Everything the contract writes as text or bytes is unambiguous and lossless. (a) A listener that sees only the strings of attributes and events - decimal numbers, 'bid'/'ask', 'true'/'false' - and never queries, knows exactly the stored orders. (b) The bytes of the bank messages of a call (protobuf MsgSend, or BankMsg::Send for refunds) decode to exactly one sender, recipient and coin, and the data of a swap decodes to the amount paid out. (c) Every stored value, and every answer to a query, is read back from its JSON text as it was written; everything stored is within its Rust type at all times; under each key there is one text, and the texts in the store determine the state completely. (d) Orders written before orders carried a time are read with time zero and otherwise unchanged. (e) Every message and question can be written and is read as it was; any text that is accepted as one has all its numbers within their types. (f) Where a 256-bit number is turned into a 128-bit one through its text, it survives exactly if it fits. Finding: the answer to GetMakerFee is a bare decimal, not the declared MakerFee object, so a client that follows the declaration can never read it.", "quantifier": "every history of calls, every message, question, stored value, coin, number and text; no bound on lengths or sizes", "why_tests_cant": "Tests compare a handful of literal strings; that no two states share their texts, that no string in a name or denomination breaks the encoding, that trimming zeros never loses a digit and that ranges are never left need all values and histories.", "anchors": ["contracts/sumtree-orderbook/src/types/coin.rs:From", "contracts/sumtree-orderbook/src/types/order.rs:OrderDirection", "contracts/sumtree-orderbook/src/order.rs:place_limit", "contracts/sumtree-orderbook/src/order.rs:cancel_limit", "contracts/sumtree-orderbook/src/order.rs:generate_claimed_order_event", "contracts/sumtree-orderbook/src/sudo.rs:dispatch_swap_exact_amount_in", "contracts/sumtree-orderbook/src/query.rs:spot_price", "contracts/sumtree-orderbook/src/msg.rs:QueryMsg", "contracts/sumtree-orderbook/src/contract.rs:query", "contracts/sumtree-orderbook/src/state.rs:orders"]}
{"id": "C72", "title": "An amount taken in parts costs at most one unit per cut more", "statement": "On either side of the book, if consecutive swaps - by any senders, with any inputs, minimum outputs and targets - receive the amounts x1, ..., xk, then the sum of the prices these amounts had at their turn (the least inputs that get them) is at least the price of x1 + ... + xk in one piece at the beginning, and exceeds it by at most k - 1 units, whatever ticks are crossed.", "quantifier": "all reachable books, both sides, all sequences of consecutive swaps, any number of parts", "why_tests_cant": "Every part starts in the book the previous one left, and rounds at other places; the bound must hold for every book, every cut and any number of cuts.", "anchors": ["contracts/sumtree-orderbook/src/order.rs:run_market_order_internal", "contracts/sumtree-orderbook/src/sudo.rs:swap_exact_amount_in", "contracts/sumtree-orderbook/src/tick_math.rs:amount_to_value"]}
{"id": "C73", "title": "When an order is claimed is nobody else's business", "statement": "Take any sequence of calls after an order exists, with claims of that order anywhere in it and no other call naming it, and compare with the same sequence without those claims. Every other call - placements, cancels, claims of other orders, swaps, administration - has the same outcome with the same answer. Afterwards all other orders, the liquidity of every tick, the settings, the next id and every quote are the same, and the contract holds exactly what the claims paid out less. If the order is then claimed in one go, that claim pays (owner, bounty and maker fee together) at least what the claims along the way paid, at most one unit per further claim more, and the two books look the same again.", "quantifier": "all reachable books with the order, all sequences of calls with claims of the order at any places and by anyone, all fees and bounties, failing and succeeding claims", "why_tests_cant": "How often and when makers or claim bots claim is unpredictable; tests fix one interleaving of claims with placements, cancels and swaps.", "anchors": ["contracts/sumtree-orderbook/src/order.rs:claim_limit", "contracts/sumtree-orderbook/src/order.rs:claim_order", "contracts/sumtree-orderbook/src/tick.rs:sync_tick", "contracts/sumtree-orderbook/src/order.rs:run_market_order_internal"]}
{"id": "C74", "title": "An order placed in two pieces", "statement": "Placing q1 + q2 as one order or as two orders of q1 and q2 in a row (same sender, tick, direction, bounty and time) makes no difference to anyone. If the one order is accepted, so are both pieces. Every later call that does not name the order - placements, cancels, claims, batches, swaps, administration - has the same outcome and the same answer, except that order ids after the order are one higher. Then all other orders, the liquidity of every tick, the settings, every quote and the contract's balances agree; the order and the pieces still show q1 + q2, q1 and q2. Claiming the order pays (owner, bounty and maker fee together) at least what claiming the two pieces pays and at most one unit more; cancelling the order refunds q1 + q2, cancelling the pieces refunds q1 and q2.", "quantifier": "all reachable books, all placements and positive cuts q1, q2, all later sequences of calls that do not name the order, all claimers, bounties and fees", "why_tests_cant": "A test picks one cut, one queue and a few later trades; that fills go through the cut, inside one tick's queue, for every interleaving with other orders, swaps and claims is a statement about all histories.", "anchors": ["contracts/sumtree-orderbook/src/order.rs:place_limit", "contracts/sumtree-orderbook/src/order.rs:claim_order", "contracts/sumtree-orderbook/src/order.rs:cancel_limit", "contracts/sumtree-orderbook/src/tick.rs:sync_tick", "contracts/sumtree-orderbook/src/order.rs:run_market_order_internal"]}
{"id": "C75", "title": "The two sides of the book are two books", "statement": "Bids and asks do not influence each other. Take any later sequence of calls and leave out everything that concerns one side: placements there, cancellations, claims and batches naming its orders, and swaps that trade against it. Every remaining call - placements, cancellations, claims and batches of the other side, swaps against the other side, administration - has the same outcome with the same answer and the same transfers, only that order ids count fewer orders. Afterwards the other side's orders, their liquidity, the quotes for trading against it and all settings are the same. This also holds while the book is crossed.", "quantifier": "all reachable books (crossed or not), both sides, all later sequences of calls whose batches do not mix the sides", "why_tests_cant": "Tests look at one side at a time; that nothing leaks between the sides through ticks, trees, counters, pointers or settings must hold for every interleaving of calls on both.", "anchors": ["contracts/sumtree-orderbook/src/order.rs:place_limit", "contracts/sumtree-orderbook/src/order.rs:cancel_limit", "contracts/sumtree-orderbook/src/order.rs:claim_order", "contracts/sumtree-orderbook/src/order.rs:run_market_order_internal", "contracts/sumtree-orderbook/src/tick.rs:sync_tick", "contracts/sumtree-orderbook/src/state.rs:subtract_directional_liquidity", "contracts/sumtree-orderbook/src/types/tick.rs:TickState::get_values"]}
{"id": "C76", "title": "What a client can work out about an order from the queries", "statement": "From the public queries alone - the order's record, AllTicks for its tick and GetUnrealizedCancels for its tick - a client can compute how much of an order can be claimed: the tick's fill position plus the unrealised cancels, less the order's own start, no less than zero, in whole units, at most the order's quantity. On every reachable book this number is exactly the amount that price-time priority has filled of the order and nobody has claimed yet. It predicts what the book will do: the order can be claimed (by anyone) exactly when the number is positive, its owner can cancel it exactly when the number is zero, and a claim settles exactly this amount and pays exactly its worth at the tick price, less bounty and fee, whatever was cancelled around the order and however stale the tick's synchronisation is.", "quantifier": "all reachable books, all stored orders, all claimers", "why_tests_cant": "The end-to-end tests compute the claimable amount with this formula and use it as their oracle; that the oracle is right for every interleaving of placements, fills, cancellations and claims is assumed there.", "anchors": ["contracts/sumtree-orderbook/src/query.rs:all_ticks", "contracts/sumtree-orderbook/src/query.rs:ticks_unrealized_cancels_by_id", "contracts/sumtree-orderbook/src/query.rs:get_unrealized_cancels", "contracts/sumtree-orderbook/src/order.rs:claim_order", "contracts/sumtree-orderbook/src/order.rs:cancel_limit", "contracts/sumtree-orderbook/src/tests/e2e/test_env.rs:get_order_claimable_amount", "contracts/sumtree-orderbook/src/tests/e2e/utils.rs:claim_and_assert_balance"]}
{"id": "C77", "title": "A book without orders is clean", "statement": "However the book was used, a tick and direction has nothing on offer exactly when its fill position plus the unrealised cancels that GetUnrealizedCancels reports equals the total ever placed there; otherwise it is less. So once all orders are gone every tick is clean (no liquidity, and everything ever placed is accounted for as filled or cancelled) and the reported pool liquidity is zero in both tokens. And the orders can always be made to go: on an active book, claiming and then cancelling every order still there, in any order, leaves none.", "quantifier": "all reachable books, all ticks and directions, all orders in which the remaining orders are cleared", "why_tests_cant": "The fuzz tests end with this check (clear_remaining_orders, clean_ticks, no_remaining_orders) after one seeded run of a thousand operations each; they cannot settle it for every history.", "anchors": ["contracts/sumtree-orderbook/src/order.rs:claim_order", "contracts/sumtree-orderbook/src/order.rs:cancel_limit", "contracts/sumtree-orderbook/src/tick.rs:sync_tick", "contracts/sumtree-orderbook/src/query.rs:get_unrealized_cancels", "contracts/sumtree-orderbook/src/query.rs:total_pool_liquidity", "contracts/sumtree-orderbook/src/tests/e2e/utils.rs:clean_ticks", "contracts/sumtree-orderbook/src/tests/e2e/cases/test_fuzz.rs:clear_remaining_orders"]}
{"id": "C78", "title": "A side nobody adds to only gets dearer, up to rounding (exactly: refuted)", "statement": "While nobody places orders on a side of the book, whatever else happens, what is on offer there only falls, tick by tick. So takers are not quoted better later than before, up to rounding: whatever an input is quoted later, one unit more per tick (not counting the first when buying) is quoted no less before; and the price of an amount does not fall by more than that. Exactly it is false, although the end-to-end tests assert it after every market order: rounding at each tick can make the same input buy more after somebody else has bought the best-priced order.", "quantifier": "all reachable books, both sides, all later histories without placements on the side, all inputs and amounts", "why_tests_cant": "The fuzz tests assert the exact statement on the runs they happen to make (decrementing_market_order_output); it is false for small amounts, and the true bound quantifies over all histories.", "anchors": ["contracts/sumtree-orderbook/src/orderbook.rs:run_market_order", "contracts/sumtree-orderbook/src/order.rs:run_market_order_internal", "contracts/sumtree-orderbook/src/query.rs:calc_out_amount_given_in", "contracts/sumtree-orderbook/src/tick_math.rs:amount_to_value", "contracts/sumtree-orderbook/src/tests/e2e/utils.rs:decrementing_market_order_output"]}
{"id": "C79", "title": "The liquidity shown is what the orders still offer", "statement": "At every point of every history, the two amounts of GetTotalPoolLiquidity are exactly the sums, over the stored orders of each side, of what each still offers: its remaining quantity less the amount that the queries show as claimable of it; every summand is non-negative; and likewise the liquidity of every tick and direction over the orders there. So a side that shows n units has at most n orders that are not completely filled, and once no order of the book can be claimed completely, at most n orders of that side are left.", "quantifier": "every history of at most 2^56 calls, every point of it at which the contract holds at most 2^128-1 of each token, every listing of the stored orders", "why_tests_cant": "the end-to-end fuzz tests only count what is left over after one particular way of draining the book; the identity relates counters updated by placements, swaps and cancels to positions of orders that only a synchronisation reveals", "anchors": ["contracts/sumtree-orderbook/src/query.rs:total_pool_liquidity", "contracts/sumtree-orderbook/src/query.rs:get_unrealized_cancels", "contracts/sumtree-orderbook/src/state.rs:add_directional_liquidity", "contracts/sumtree-orderbook/src/state.rs:subtract_directional_liquidity", "contracts/sumtree-orderbook/src/order.rs:claim_order"]}
