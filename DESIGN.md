# Formal model of osmosis-labs/orderbook (sumtree-orderbook) in Rocq/Coq 8.16

Scope: the CosmWasm contract `contracts/sumtree-orderbook/src` (Rust). Source paths below are relative to it.

## 1. Shape of the development (`/verif/rocq/theories`)

**Model** (executable Gallina, no proofs; every definition cites file:lines):

| file | models |
|---|---|
| `Base.v` | result values `Ok / Err / Panic / NoFuel`, storage-passing monad |
| `Dec.v` | `Uint128/Uint256/Decimal256` arithmetic of cosmwasm-std 1.5 (library, from its documentation) |
| `Types.v`, `State.v` | `types/*.rs`, `constants.rs`, `error.rs`, `state.rs` (storage record, items and maps) |
| `TickMath.v` | `tick_math.rs` |
| `Sumtree.v` | `sumtree/node.rs`, `sumtree/tree.rs` on the pointer-based node store |
| `Tick.v` | `tick.rs` (`sync_tick`) |
| `Order.v` | `order.rs` (place, cancel, claim, batch claim, market order) |
| `Auth.v`, `Contract.v` | `auth.rs`, `orderbook.rs`, `sudo.rs`, `contract.rs` |
| `Query.v` | `query.rs` and the `query` entry point |
| `World.v` | chain around the contract: atomic transactions, bank balance of the contract, sub-messages with `reply`, funds |
| `Keys.v` | the byte keys of the store and the index upkeep of cw-storage-plus |
| `Wire.v` | `Display`/`FromStr` of numbers and decimals, coins and directions; JSON writer and parser (`types/coin.rs`, `query.rs:67-69`) |
| `Codec.v` | the JSON of stored values, messages, questions and answers (`msg.rs`, `types/*.rs`, `sumtree/node.rs`), and responses as the chain sees them |
| `Delete.v` | `delete` and `sync_range_and_value_up` of `sumtree/node.rs` |
| `Tests.v` | the model run on end-to-end scenarios (evidence of faithfulness, not a proof) |
| `Conf*.v` | the repository's own unit tests replayed on the model, all of `src/tests` and `src/sumtree/test` (see section 5) |

**Specification**, small and independent of the contract's data structures: `Spec.v` (an idealised first-in-first-out
book, driven only by what an observer sees), `SpecMath.v` (prices and rounding as integer formulas), `SpecTree.v`
(inductive trees, greedy realisation of cancelled ranges), `SpecProps.v`, `SpecAdmin.v`, `SpecQuery.v`, `SpecEvents.v`,
`SpecSettings.v`, `SpecFree.v`, `SpecBank.v`, `SpecLife.v` … (vocabulary of the statements).

**Proof layers**

1. `TickMathProofs.v`: arithmetic of prices and conversions.
2. `TreeDefs.v`, `Exec.v`, `SumtreeProofs.v`, `SumtreeRebalance.v`, `SumtreeInsert.v`, `SumtreeRoot.v`, `SumtreeFail.v`,
   `PrefixSum.v`: the pointer tree in storage represents an inductive tree; `insert` + `rebalance` + rotations refine a
   functional AVL insert; the prefix-sum walk equals the greedy realisation of the cancelled ranges.
3. `Ghost.v`, `Inv.v`: a ghost description of each tick side (placed segments: live, cancelled, claimed; amount filled),
   and the invariant `inv` that ties storage to it.
4. `StepPlace.v`, `StepCancel.v`, `StepClaim.v`, `SwapPlan.v`, `StepSwap.v`: exact result of each operation from a state with
   the invariant, including every failure branch. `Trans.v`: one inductive transition relation for all calls,
   `Reach.v`: the invariant holds in every reachable state.
5. `Refine.v`, `RefineStep.v`: the contract refines the ideal FIFO book. `Reserve.v`, `Solvency.v`: the contract's balances
   always cover what it owes (per fill epoch of a tick). `Books.v`: pool totals, next-tick pointers. `PlanCurve.v`: the swap as a
   function of its input.
6. `Prop*.v`: the property theorems, each followed by `Print Assumptions` and a concrete non-trivial case.

## 2. Modelling decisions

* A `&mut Storage` function becomes `storage -> storage * res A`; an `Err` returns the storage **as written so far** (this matters: `batch_claim_limits` swallows errors without rolling back). A transaction that ends in `Err` or `Panic` rolls back (`World.v`).
* Fixed point: `Decimal256` is its integer atomics (`Z`, 18 decimals) with every `checked_*` bound check, every panic of `from_ratio`/`unwrap`, written out. `u64` counters panic on overflow (`overflow-checks = true` in both `[profile.release]` sections).
* Recursion over the node store is on fuel (`number of stored nodes + 1`), with a separate `NoFuel` outcome; the proofs show that it does not occur in reachable states, so no theorem depends on the fuel.
* Storage maps are std++ `gmap`s; ordered iteration is a sorted key list. The secondary indexes of `orders()` are modelled as filters. That this is what the chain's store shows is C70: `Keys.v` gives the byte keys of every entry, the order of the store and the upkeep of the index entries, and the range scans of that raw store are proved equal to the filtered sorted lists.
* Addresses and denoms are strings. `addr_validate`, `query_supply`, the block time, and whether the bank accepts a recipient are oracles in the per-call environment record and universally quantified; they may differ from call to call.
* Messages carry Rust-typed integers; well-typedness (`0 <= q < 2^128`, `i64`, `u64`, `Decimal256` ranges) is an explicit boolean predicate on calls (`call_ok`).
* `reachable`: any successful instantiation followed by any finite history of well-typed calls - executes by any sender other than the contract itself, sudo messages, migrations, plain transfers to the contract - successful or not. There is no bound on length, number of orders or amounts. Liveness properties (C07, C09, C13, C20 wind-down, C35) additionally assume `short`: at most 2^56 calls so far, which keeps the `u64` id counters and 256-bit totals away from their maximum; safety properties do not.
* Errors carry the values of `error.rs`; error texts are kept as the values they are made of (`swap_fault` for InvalidSwap), the operands inside wrapped library errors (overflow, conversion, missing key) are dropped.
* Attributes/events and messages are structured values in the model of the entry points. How they are rendered - attribute strings, JSON, the protobuf bytes of `MsgSend` - is in `Wire.v` and `Codec.v`, and that nothing is lost on the way is C71.

## 3. Properties, theorems, cases

No property in the list is inexpressible in the model. C26, C28, C33, C34 are expectations that the code does *not* meet in full;
for these the theorem is the refutation (a concrete reachable counterexample) together with the strongest part that holds.

<!-- table -->
| id | property | theorems (file) | concrete cases |
|---|---|---|---|
| C01 | Every valid tick has a price, inside the advertised spot-price range, and higher ticks are strictly more expensive | `C01_tick_prices` (PropMath.v) | `C01_case` |
| C02 | Amount/price conversion is total and rounds exactly as requested | `C02_conversion` (PropMath.v) | `C02_case` |
| C03 | Placing a limit order: exact acceptance rule and exact effect | `C03_place_effect` (PropOrders.v), `C03_place_accepted` (PropOrders.v) | `C03_case` |
| C04 | Order ids are unique forever | `C04_ids_increase` (PropOrders.v), `C04_ids_unique` (PropOrders.v) | `C04_case` |
| C05 | Cancelling refunds exactly the open quantity to the owner, and only the owner can cancel | `C05_cancel_effect` (PropOrders.v) | `C05_case` |
| C06 | Cancel is refused exactly when part of the order is filled but unclaimed (FIFO view) | `C06_cancel_iff` (PropOrders.v), `C06_cancel_unfilled` (PropOrders.v) | `C06_case` |
| C07 | An unfilled order can always be withdrawn | `C07_withdraw` (PropOrders.v) | `C07_case` |
| C08 | Claims pay the FIFO fill: price-time queue refinement | `C08_fifo_state` (PropClaims.v), `C08_claim_settles_fifo` (PropClaims.v) | `C08_case` |
| C09 | A filled order can always be claimed by anyone, an unfilled one never | `C09_claim_iff` (PropClaims.v) | `C09_case` |
| C10 | Claim proceeds are split without loss, within the advertised fee caps | `C10_claim_split` (PropClaims.v) | `C10_case` |
| C11 | No double spending of an order | `C11_accounting` (PropHistory.v), `C11_gone_for_good` (PropHistory.v) | `C11_case` |
| C12 | Makers never get a worse price than their limit (up to one unit of rounding per claim) | `C12_maker_price` (PropClaims.v) | `C12_case` |
| C13 | Batch claim equals independent claims; failing entries are harmless | `C13_batch_is_claims` (PropBatch.v), `C13_batch_accepted` (PropBatch.v) | `C13_case`, `C13_too_many` |
| C14 | Swap result is what was promised: minimum output, right denom, right recipient, input accounted for | `C14_swap_result` (PropSwap.v) | `C14_case` |
| C15 | Price priority: a swap takes the best price first and skips no liquidity | `C15_pointer` (PropSwap.v), `C15_price_priority` (PropSwap.v) | `C15_case` |
| C16 | Quoted output equals executed output | `C16_quote_exact` (PropQuote.v), `C16_quote_fails` (PropQuote.v), `C16_queries_agree` (PropQuote.v) | `C16_case` |
| C17 | SwapToTick never trades beyond its target tick | `C17_swap_to_tick` (PropSwap.v) | `C17_case` |
| C18 | Per-tick exchange in a swap: liquidity removed equals output, charge never below the tick price for the book | `C18_swap_fills` (PropSwap.v) | `C18_case` |
| C19 | Reported pool liquidity is the true open interest | `C19_pool_liquidity` (PropBooks.v) | `C19_case` |
| C20 | Solvency: the contract can always pay everybody | `C20_solvent` (PropBooks.v), `C20_transfers_covered` (PropBooks.v), `C20_wind_down` (PropBooks.v) | `C20_case`, `C20_wind_down_case` |
| C21 | The cancellation tree is always a correct, balanced sumtree | `C21_tree` (PropTree.v), `C21_ranges_disjoint` (PropTree.v) | `C21_case` |
| C22 | Prefix sum computes the greedy realisation of cancels | `C22_prefix_sum` (PropTree.v), `C22_no_tree` (PropTree.v) | `C22_case` |
| C23 | Tick invariants: fill position never passes the total placed | `C23_totals` (PropTree.v), `C23_sync` (PropTree.v) | `C23_case` |
| C24 | GetUnrealizedCancels predicts the next sync, and sync is idempotent | `C24_predicts_sync` (PropTree.v), `C24_idempotent` (PropTree.v), `C24_skip_harmless` (PropTree.v), `C24_query` (PropQuery.v) | `C24_case`, `C24_naive_refuted` |
| C25 | An inactive book accepts no trading | `C25_inactive` (PropAdmin.v), `C25_frozen` (PropAdmin.v), `C25_auth_works` (PropAdmin.v) | `C25_case` |
| C26 | Governance can always switch the book back on through sudo (refuted) | `C26_sudo_refuted` (PropAdmin.v), `C26_who_reactivates` (PropAdmin.v), `C26_moderator_can` (PropAdmin.v) | `C26_case` |
| C27 | Only the admin administers; roles move only by offer and acceptance | `C27_auth_exact` (PropAdmin.v), `C27_chain_exact` (PropAdmin.v), `C27_others` (PropAdmin.v), `C27_who_changes` (PropAdmin.v), `C27_admin_keeps` (PropAdmin.v), `C27_handover` (PropAdmin.v) | `C27_case` |
| C28 | Renounced adminship is final (refuted) | `C28_offer_survives` (PropAdmin.v), `C28_final_without_offer` (PropAdmin.v) | `C28_case`, `C28_case_renounce` |
| C29 | The maker fee never exceeds 5% and always has a recipient | `C29_limits` (PropAdmin.v), `C29_denoms_fixed` (PropAdmin.v) | `C29_case` |
| C30 | OrdersByOwner returns exactly the owner's live orders, paged in key order | `C30_page` (PropQuery.v), `C30_truncated` (PropQuery.v), `C30_paging` (PropQuery.v), `C30_by_tick_filter` (PropQuery.v) | `C30_case` |
| C31 | OrdersByTick returns exactly the tick's live orders in order | `C31_orders_by_tick` (PropQuery.v) | `C31_case` |
| C32 | AllTicks / TicksById report the stored ticks faithfully | `C32_all_ticks` (PropQuery.v), `C32_ticks_by_id` (PropQuery.v), `C32_known_ticks` (PropQuery.v) | `C32_case` |
| C33 | Spot price is a bound on the best available price (best price with liquidity: refuted) | `C33_spot_price` (PropQuery.v), `C33_cancel_blind` (PropQuery.v), `C33_refuted` (PropQuery.v) | `C33_case` |
| C34 | A funded swap against sufficient liquidity executes (buy side holds, sell side refuted) | `C34_buy_executes` (PropQuote.v), `C34_sell_blocked` (PropQuote.v) | `C34_buy_case`, `C34_sell_blocked_case` |
| C35 | Who claims, and in which order, does not matter for what the orders were filled | `C35_claim_isolated` (PropIsolation.v), `C35_any_sender` (PropIsolation.v), `C35_claims_commute` (PropIsolation.v) | `C35_case` |
| C36 | Ticks and directions are isolated | `C36_place_local` (PropIsolation.v), `C36_cancel_local` (PropIsolation.v), `C36_claim_local` (PropIsolation.v), `C36_swap_local` (PropIsolation.v) | `C36_case` |
| C37 | Unsupported operations abort | `C37_exact_out_fails` (PropAdmin.v), `C37_calc_in_fails` (PropAdmin.v) | `C37_case` |
| C38 | Instantiation establishes a sane empty book | `C38_instantiate` (PropAdmin.v), `C38_queries` (PropAdmin.v), `C38_open_for_trading` (PropAdmin.v) | `C38_case` |
| C39 | Order records keep their identity | `C39_order_identity` (PropHistory.v) | `C39_case` |
| C40 | Unconsumed swap input is refunded or worthless | `C40_leftover` (PropSwap.v) | `C40_case` |
| C41 | Queries are answered on every reachable book | `C41_answers` (PropQuery.v) | `C41_case` |
| C42 | Events and attributes alone reproduce the order table | `C42_indexer` (PropEvents.v), `C42_place_announces` (PropEvents.v), `C42_cancel_announces` (PropEvents.v), `C42_claim_announces` (PropEvents.v), `C42_swap_announces` (PropEvents.v) | `C42_case` |
| C43 | Settings are what the last successful setting call said | `C43_settings` (PropSettings.v) | `C43_case` |
| C44 | More input never buys less | `C44_quote_monotone` (PropCurve.v), `C44_swap_monotone` (PropCurve.v) | `C44_case` |
| C45 | Splitting a swap never pays | `C45_split_swaps` (PropCurve.v), `C45_split_quotes` (PropCurve.v) | `C45_case` |
| C46 | No free money on an uncrossed book | `C46_no_free_money` (PropFree.v) | `C46_case`, `C46_crossed` |
| C47 | Transfers are all or nothing | `C47_paid_in_full` (PropBank.v), `C47_all_or_nothing` (PropBank.v), `C47_reply_refuses` (PropBank.v) | `C47_case` |
| C48 | Donations are ignored | `C48_balance_blind` (PropBank.v), `C48_donations_ignored` (PropBank.v) | `C48_case`, `C48_hyp` |
| C49 | An order earns its price over its whole life | `C49_lifetime` (PropLife.v), `C49_complete` (PropLife.v) | `C49_case` |
| C50 | The contract is this machine | `C50_same_outcomes` (PropMachine.v), `C50_same_state` (PropMachine.v), `C50_same_quotes` (PropMachine.v) | `C50_case` |
| C51 | A withdrawn order leaves no trace | `C51_no_trace` (PropTrace.v) | `C51_case` |
| C52 | Only the numbers matter | `C52_only_numbers_matter` (PropNames.v), `C52_clock` (PropNames.v) | `C52_case` |
| C53 | Books that look the same have the same future | `C53_same_future` (PropAlike.v) | `C53_case` |
| C54 | Managing different orders commutes | `C54_commute` (PropCommute.v) | `C54_case` |
| C55 | Time priority | `C55_time_priority` (PropPriority.v), `C55_seen` (PropPriority.v) | `C55_case` |
| C56 | Depth beyond the marginal price does not matter | `C56_depth` (PropDepth.v) | `C56_case` |
| C57 | The spot price follows placements and fills, nothing else | `C57_pointers` (PropSpot.v), `C57_shown` (PropSpot.v), `C57_after_swap` (PropSpot.v) | `C57_case` |
| C58 | An order has no influence on those before it in the queue | `C58_behind` (PropBehind.v) | `C58_case` |
| C59 | All that the contract holds is owed, given or rounding | `C59_accounts` (PropAccount.v), `C59_step` (PropAccount.v) | `C59_case` |
| C60 | What a taker pays lies between the spot prices before and after | `C60_corridor` (PropPrice.v) | `C60_case` |
| C61 | The price of an amount | `C61_price_of_amount` (PropBuy.v), `C61_sold_out` (PropBuy.v) | `C61_C62_case` |
| C62 | More depth helps a buyer, up to one unit per tick (exact monotonicity refuted) | `C62_deeper_book` (PropBuy.v), `C62_exact_refuted` (PropBuy.v), `C62_price_either_side` (PropDeep.v), `C62_quote_either_side` (PropDeep.v), `C62_exact_refuted_for_sells` (PropDeep.v) | `C61_C62_case`, `C62_either_side_case` |
| C63 | Paging stays correct while the book is traded | `C63_paging_while_trading` (PropPaging.v), `C63_tick_orders_while_trading` (PropPages.v), `C63_ticks_while_trading` (PropPages.v) | `C63_case`, `C63_pages_case` |
| C64 | Deleting a tree node removes exactly that range | `C64_delete` (PropDelete.v), `C64_prefix_sum` (PropDelete.v), `C64_reachable` (PropDelete.v) | `C64_case`, `C64_unused` |
| C65 | The work of a call does not grow with the book | `C65_bounded_calls` (PropCost.v), `C65_cancel_logarithmic` (PropCost.v), `C65_swap_levels` (PropCost.v) | `C65_case` |
| C66 | A swap with a minimum executes exactly when its input covers the price of the minimum | `C66_quote_covers` (PropCover.v), `C66_executes_iff_covered` (PropCover.v) | `C66_case` |
| C67 | The book stores nothing it does not need | `C67_no_orphans` (PropSize.v), `C67_tree_nodes` (PropSize.v), `C67_total_nodes` (PropSize.v), `C67_orders_and_ticks` (PropSize.v) | `C67_case` |
| C68 | A refused call says why | `C68_refusals` (PropWhy.v), `C68_known_errors` (PropWhy.v), `C68_queries` (PropWhy.v), `C68_new_book` (PropWhy.v) | `C68_case` |
| C69 | What a call depends on, and the swap that cannot be kept cheap | `C69_bounded_calls` (PropReads.v), `C69_orders` (PropReads.v), `C69_batch` (PropReads.v), `C69_swap_scope` (PropReads.v), `C69_swap_scans` (PropReads.v), `C69_free_scans` (PropScan.v), `C69_swap_unbounded` (PropScan.v) | `C69_case` |
| C70 | Stored entries never share a raw key, and scans see exactly what they should | `C70_distinct` (PropKeys.v), `C70_order` (PropKeys.v), `C70_tick_scan` (PropKeys.v), `C70_order_scan` (PropKeys.v), `C70_owner_scans` (PropKeys.v), `C70_indexes` (PropKeys.v) | `C70_case` |
| C71 | What is written can be read back | `C71_listener` (PropWire.v), `C71_payments` (PropWire.v), `C71_values` (PropCodec.v), `C71_in_range` (PropCodec.v), `C71_store` (PropCodec.v), `C71_messages` (PropCodec.v), `C71_answers` (PropCodec.v), `C71_narrow` (PropCodec.v) | `C71_case` |
| C72 | An amount taken in parts costs at most one unit per cut more | `C72_two_parts` (PropParts.v), `C72_parts` (PropParts.v) | `C72_case` |
| C73 | When an order is claimed is nobody else's business | `C73_nobody_else_notices` (PropEarly.v), `C73_late_claim` (PropEarly.v) | `C73_case` |
| C74 | An order placed in two pieces | `C74_two_pieces` (PropHalves.v), `C74_claims` (PropHalves.v), `C74_cancels` (PropHalves.v) | `C74_case` |
| C75 | The two sides of the book are two books | `C75_two_books` (PropSides.v) | `C75_case` |
| C76 | What a client can work out about an order from the queries | `C76_claimable` (PropClean.v), `C76_predicts` (PropClean.v) | `C76_case` |
| C77 | A book without orders is clean | `C77_clean_tick` (PropClean.v), `C77_empty_book` (PropClean.v), `C77_cleared` (PropClean.v) | `C77_case` |
| C78 | A side nobody adds to only gets dearer, up to rounding (exactly: refuted) | `C78_shrinks` (PropShrink.v), `C78_quotes` (PropShrink.v), `C78_prices` (PropShrink.v), `C78_exact_refuted` (PropShrink.v) | `C78_case` |
| C79 | The liquidity shown is what the orders still offer | `C79_liquidity_of_orders` (PropLeft.v), `C79_few_left` (PropLeft.v) | `C79_case` |
<!-- /table -->

How they are proved: C01, C02, C12 arithmetic over `Z`; C03-C05, C36, C39 from the transition relation; C06-C09, C11, C13, C35, C49, C55 from the
refinement to the FIFO book; C14-C18, C40, C44-C46, C57, C60-C62, C66, C72 from the loop invariant of the market order and the swap plan; C19, C23 from the invariant;
C20, C47, C48 from the reserve invariant; C21, C22, C24, C64 from the tree layers (C64: a leaf and its chain of ancestors); C25-C29, C37, C38, C43 from the decision logic;
C30-C33, C41, C63 from lemmas on sorted key lists plus the invariant; C42 by simulation; C50 by showing that the machine of `SpecMachine.v` (the live entries of
the FIFO book plus settings) makes exactly the contract's step: forward from the transition relation, backward from the acceptance theorems C03, C06, C09, C13, C27 and C16; C79 from C08, C19 and C76; C76 and C77 from the ghost queue of each tick (the position after a synchronisation determines every fill) and the wind-down of C20; C78 from C62; C51-C54, C56, C58, C73-C75 from C50: simulations between machine states (ids renumbered; names changed; equal by first-in-first-out; edits of different orders; books equal up to a tick; books equal up to a place in the queue; books equal up to the unclaimed part of one order; one order cut in two; one side frozen). C68 by executing every entry point check by check on the invariant, with an exact error lemma for the tick loop. C66 by induction on the walk of the machine through the levels. C67 by counting the keys of the represented trees (the invariant says that the store has no other nodes). C65 by counting the writes of each function and, for cancels, by induction on the tree that the store represents. C69 by running the same program on two storages that agree on a list of entries and counting the entries needed (the walks over the represented tree give the logarithm); the lower bound for swaps by editing one tick and comparing the two runs. C70 by injectivity and monotonicity of the key encodings and induction on the saves and removals. C71: the parser inverts the printer, by induction on JSON values; each struct's reader inverts its writer on values in range; the invariant keeps everything stored in range; the listener by comparing it with that of C42. C59 over rationals: the machine step for everything but swaps, the fills of C18 and C40 summed over the FIFO book for swaps.

## 4. Trusted base

* The kernel of Coq 8.16.1 (`vm_compute` included, used for concrete cases only).
* `Print Assumptions` of every property theorem prints **Closed under the global context**: no axiom is used. (Loading std++ brings
  `Coq.ssr.ssrunder.Under_rel.*` into the environment - the module-type parameters of the standard library's `under` tactic; no theorem uses them.)
  No axiom, `Admitted`, functor or module type is defined here.
* The reading of the Rust code recorded in the comments of the model files.
* The assumed semantics of cosmwasm-std 1.5.5 (integers, decimals, atomic calls, `reply_on_error`), cw-storage-plus 1.2.0 (that it lays keys out and
  saves index entries as in `Keys.v`; what follows from that is proved, C70), the texts of cosmwasm-std, serde and prost (that they read and write as `Wire.v` and `Codec.v` say), cw-utils 1.0.3 (`nonpayable`), the bank module (a transfer fails if the amount is zero, above the balance, or the recipient is blocked),
  and the Osmosis cosmwasmpool module (it moves `token_in` to the contract before calling sudo).

Modelled: every entry point (`instantiate`, `execute` with all messages incl. auth, `sudo`, `query`, `migrate`, `reply`) and everything they call.

Not modelled: JSON numbers with fractions or exponents (no type of the contract has them) and escapes above `\u00ff`, gas, schema generation, error message texts,
the TypeScript SDK, `#[cfg(test)]` helpers, and debug helpers that no entry point calls (`traverse`, `traverse_bfs`, `Display`).

## 5. Testing the model and the theorems

The model is tested against the code's own expectations: `ConfOrder.v`, `ConfTree.v`, `ConfTick.v`, `ConfQuery.v`, `ConfAuth.v` and `ConfRest.v` contain the
tables of all table-driven unit tests of /repo (about 330 cases with their expected outputs, errors, messages and node ids), translated mechanically by
`tools/conform.py`, and the tests' loops transcribed by hand on top of the model; `vm_compute` finds no case on which the model disagrees. The two tests that draw
leaves from Rust's random generator are replayed with another sequence. `ConfE2E.v` replays the end-to-end tests of `src/tests/e2e` on the model with its bank: the
scenarios of `test_orders.rs` with their balances, liquidity and prices after every step, and the random ones of `test_fuzz.rs` over the same tick ranges with a small
deterministic generator, fewer steps, and the same assertions after every step and at the end. This supports the reading of the code; no theorem depends on it.

`seeded/LOG.jsonl` records wrong programs: one edit of a model definition each, the claim it breaks and the theorems that stop proving.
