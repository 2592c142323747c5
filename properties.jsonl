{"id": "C01", "title": "Taker fee is the exact rounded-up rate and never exceeds the trade", "statement": "For every fee tier and every quote amount x that fits in 64 bits, the taker fee is the smallest integer that is at least x times the tier's 64.64 fixed-point rate; it is zero only for x = 0, never exceeds x, is monotone in x, and a better tier never charges more than a worse tier.", "quantifier": "every fee tier, every pair of u64 amounts", "why_tests_cant": "2^64 amounts per tier; rounding errors show up only at isolated amounts", "anchors": ["dex/src/fees.rs:FeeTier::taker_fee", "dex/src/fees.rs:FeeTier::taker_rate", "dex/src/fees.rs:U64F64"]}
{"id": "C02", "title": "The exchange never pays more in rebates than it collects", "statement": "For every trade, whatever the tiers of the two sides, taker fee minus maker rebate minus referrer rebate is never negative, so accruing a trade's fees can never underflow the market's fee counters.", "quantifier": "every taker tier, maker tier and u64 trade amount", "why_tests_cant": "needs all amounts and all 64 tier pairs", "anchors": ["dex/src/fees.rs:FeeTier::maker_rebate", "dex/src/fees.rs:referrer_rebate", "dex/src/matching.rs:OrderBookState::new_ask", "dex/src/matching.rs:OrderBookState::new_bid"]}
{"id": "C03", "title": "A spend limit that includes fees is never exceeded", "statement": "If a buyer caps the spend (fees included) at L, then any fill worth at most the net amount the exchange derives from L costs, fee included, at most L; and the derived net amount is the largest with that property.", "quantifier": "every tier and every u64 limit L, every fill value not above the derived net amount", "why_tests_cant": "off-by-one fee rounding appears at sparse amounts", "anchors": ["dex/src/fees.rs:FeeTier::remove_taker_fee", "dex/src/matching.rs:OrderBookState::new_bid"]}
{"id": "C04", "title": "Fee tier depends only on token balances and market and is monotone", "statement": "The tier granted to a trader is determined by the market address and the SRM/MSRM balance of the trader's own token account: the Stable tier on exactly the listed stable markets, otherwise any MSRM gives MSRM, otherwise the SRM thresholds; a larger balance never gives a worse rate. A discount account not owned by the trader is rejected.", "quantifier": "every market address, balances and discount account", "why_tests_cant": "all balances around thresholds and all addresses", "anchors": ["dex/src/fees.rs:FeeTier::from_srm_and_msrm_balances", "dex/src/state.rs:MarketState::load_fee_tier"]}
{"id": "C05", "title": "Order book storage behaves as a finite map", "statement": "Starting from an empty book of any capacity, after any sequence of insertions, removals by id, removals of best/worst, the stored orders are exactly those of an ordinary finite map keyed by order id: insertion returns the replaced order, removal returns the removed order, and orders with other ids are untouched.", "quantifier": "every capacity, every finite sequence of operations with any 128-bit keys", "why_tests_cant": "the tree shape depends on the whole history; random tests see a vanishing part", "anchors": ["dex/src/critbit.rs:Slab::insert_leaf", "dex/src/critbit.rs:Slab::remove_by_key", "dex/src/critbit.rs:Slab::remove_min", "dex/src/critbit.rs:Slab::remove_max", "dex/src/critbit.rs:Slab::get"]}
{"id": "C06", "title": "Best price lookup is right in every book state", "statement": "In any reachable book, the minimum (maximum) lookup returns the order with the smallest (largest) id of all stored orders, and reports nothing exactly when the book is empty.", "quantifier": "every reachable book state", "why_tests_cant": "depends on tree shape after arbitrary histories", "anchors": ["dex/src/critbit.rs:Slab::find_min", "dex/src/critbit.rs:Slab::find_max", "dex/src/critbit.rs:Slab::find_min_max"]}
{"id": "C07", "title": "Book storage integrity: no leaks, no double use, deterministic capacity", "statement": "In any reachable book with n orders exactly max(0,2n-1) node slots are in use, every other slot that was ever handed out is on the free list exactly once, and inserting a new order fails with out-of-space exactly when fewer free slots remain than needed; a failed insertion leaves the stored orders unchanged, so a book of N slots always accepts (N+1)/2 orders and removing any order makes room for another.", "quantifier": "every capacity and every history of operations", "why_tests_cant": "leaks accumulate over histories no test enumerates", "anchors": ["dex/src/critbit.rs:Slab::insert", "dex/src/critbit.rs:Slab::remove", "dex/src/critbit.rs:Slab::insert_leaf", "dex/src/critbit.rs:Slab::assert_minimum_capacity"]}
{"id": "C08", "title": "Search by owner finds exactly that owner's orders", "statement": "Searching a book for the orders of one owner with a node budget at least the number of nodes in use returns each of that owner's orders exactly once and nothing else; with a smaller budget it returns only orders of that owner, no duplicates, and never uses more than the budget.", "quantifier": "every reachable book, owner and budget", "why_tests_cant": "depends on tree shape and budget cut-offs", "anchors": ["dex/src/critbit.rs:Slab::find_by", "dex/src/matching.rs:OrderBookState::remove_all"]}
{"id": "C09", "title": "Queues are FIFO ring buffers", "statement": "From the empty queue of any non-zero capacity, after any sequence of pushes, pops and push-reverts, the observable contents equal those of an ordinary FIFO list: push fails exactly when full and changes nothing, pop returns the oldest element, iteration yields elements oldest first, reverting drops exactly the newest pushes; and the sequence counter clients use to number events is the number of items popped so far plus the number still stored.", "quantifier": "every capacity and every sequence of operations, including arbitrarily many wrap-arounds", "why_tests_cant": "wrap-around positions times histories is unbounded", "anchors": ["dex/src/state.rs:Queue::push_back", "dex/src/state.rs:Queue::pop_front", "dex/src/state.rs:Queue::peek_front", "dex/src/state.rs:Queue::revert_pushes", "dex/src/state.rs:QueueIterator::next"]}
{"id": "C10", "title": "Stored events and requests decode to what was written", "statement": "Every fill/out event and every new/cancel request written to a queue slot decodes to the same event or request field for field; a stored record is accepted exactly when its flag byte lies in an explicit list, and every byte outside it aborts rather than being misread (the list is larger than what the writer produces: a blank record reads as an out event). The flag bits, fee tier and self-trade numbers stored are those of an explicit table.", "quantifier": "every event, every request, every flag byte", "why_tests_cant": "the field space is astronomically large", "anchors": ["dex/src/state.rs:Event::new", "dex/src/state.rs:Event::as_view", "dex/src/state.rs:Request::new", "dex/src/state.rs:Request::as_view"]}
{"id": "C11", "title": "Instruction encoding round-trips and malformed input is rejected", "statement": "Every client-built instruction (with at most eight replacement orders) decodes to itself; decoded fields are always in range (non-zero where required, known enum values), and accepted bytes are exactly the packed form of the decoded instruction, apart from two short forms (a new order without its timestamp limit, fewer than eight client ids), so inputs with a wrong length, version byte or discriminant, a zero in a non-zero field or an unknown enum value decode to nothing rather than to some other instruction. The number of each instruction and the width, place and meaning of each of its fields are those of an explicit table: bytes are read as an instruction exactly when they are its row of the table.", "quantifier": "every instruction value and every byte string", "why_tests_cant": "byte strings up to hundreds of bytes", "anchors": ["dex/src/instruction.rs:MarketInstruction::pack", "dex/src/instruction.rs:MarketInstruction::unpack", "dex/src/instruction.rs:NewOrderInstructionV3::unpack"]}
{"id": "C12", "title": "Order ids give price-time priority", "statement": "Ids handed out on one side are distinct as long as the 64-bit sequence counter has not wrapped, and across sides as long as it is below 2^63; the price can be read back from the id; among bids a larger id means a higher price or the same price and earlier arrival, among asks a smaller id means a lower price or the same price and earlier arrival.", "quantifier": "every pair of order submissions, any prices and sides", "why_tests_cant": "pairs of orders over the whole 64-bit price and sequence space", "anchors": ["dex/src/state.rs:RequestQueue::gen_order_id", "dex/src/state.rs:RequestQueue::gen_seq_num", "dex/src/critbit.rs:LeafNode::price"]}
{"id": "C13", "title": "The book is never crossed", "statement": "After every successful instruction the best bid price is strictly below the best ask price whenever both sides are non-empty.", "quantifier": "every history of instructions from market creation", "why_tests_cant": "holds over unbounded histories of interacting orders", "anchors": ["dex/src/matching.rs:OrderBookState::new_order", "dex/src/matching.rs:OrderBookState::new_ask", "dex/src/matching.rs:OrderBookState::new_bid"]}
{"id": "C14", "title": "Immediate-or-cancel orders never rest", "statement": "Processing an immediate-or-cancel order (including every send-take) never adds an order to either side of the book, whatever the match limit.", "quantifier": "every book, order and match limit", "why_tests_cant": "all books and limits; a past bug was in the limit-exhausted corner", "anchors": ["dex/src/matching.rs:OrderBookState::new_order"]}
{"id": "C15", "title": "Post-only orders never take", "statement": "Processing a post-only order produces no fills, pays no fee and changes no resting order except that a full book may evict its worst order; if it would cross it is returned unfilled.", "quantifier": "every book, order and match limit", "why_tests_cant": "all books", "anchors": ["dex/src/matching.rs:OrderBookState::new_order", "dex/src/matching.rs:OrderBookState::new_ask", "dex/src/matching.rs:OrderBookState::new_bid"]}
{"id": "C16", "title": "Trades happen at the resting price and within the taker's limit", "statement": "Every fill of an incoming order is at the price of the resting order, never worse than the incoming order's limit price, and always against the best-priority order then in the book; no better-priced resting order is skipped.", "quantifier": "every book and incoming order", "why_tests_cant": "all books and prices", "anchors": ["dex/src/matching.rs:OrderBookState::new_ask", "dex/src/matching.rs:OrderBookState::new_bid"]}
{"id": "C17", "title": "A taker never spends more than authorised", "statement": "For every incoming order, the coin it sells never exceeds the requested quantity, the coin it buys never exceeds the requested quantity, and the quote currency it pays, fees included, never exceeds the stated maximum; whatever is not spent and not left locked behind a resting order is released: spent + released + still-resting equals what was locked, exactly.", "quantifier": "every book, order, fee tier and match limit", "why_tests_cant": "rounding over arbitrarily many partial fills", "anchors": ["dex/src/matching.rs:OrderBookState::new_order", "dex/src/matching.rs:RequestProceeds"]}
{"id": "C18", "title": "Self-trade options do what they say", "statement": "When an incoming order meets an order of the same account: with Abort the instruction fails; with CancelProvide the resting order leaves the book with its whole remainder released and the incoming quantity is unchanged; with DecrementTake both are reduced by the same quantity; never is there a fill or a fee between an account and itself.", "quantifier": "every book, order and behaviour", "why_tests_cant": "all combinations of sizes and remaining amounts", "anchors": ["dex/src/matching.rs:OrderBookState::new_ask", "dex/src/matching.rs:OrderBookState::new_bid", "dex/src/instruction.rs:SelfTradeBehavior"]}
{"id": "C19", "title": "Match limit bounds work and never loses funds", "statement": "An incoming order performs at most limit+1 matching rounds, always terminates with nothing left unaccounted for, and when the limit runs out while still crossing the remainder is cancelled and its funds released rather than posted.", "quantifier": "every book, order and u16 limit", "why_tests_cant": "all limits and book depths", "anchors": ["dex/src/matching.rs:OrderBookState::new_order"]}
{"id": "C20", "title": "Full book evicts the least aggressive order and compensates its owner", "statement": "When a new order is to rest on a full side, exactly the order with the worst priority of that side is removed, an event releasing exactly its locked amount to its owner is queued, and the new order is stored; no other resting order is affected.", "quantifier": "every full book and order", "why_tests_cant": "books of arbitrary capacity and shape", "anchors": ["dex/src/matching.rs:OrderBookState::new_ask", "dex/src/matching.rs:OrderBookState::new_bid"]}
{"id": "C21", "title": "Coin conservation: every account's claim is backed", "statement": "At every point of every history the sum over open-orders accounts of total coin, corrected by fills still waiting in the event queue, equals the market's recorded coin deposits, and the coin vault holds at least that much.", "quantifier": "every history of instructions by any users, interleaved with any direct token transfers into the vault", "why_tests_cant": "global invariant over unbounded histories", "anchors": ["dex/src/state.rs:State::process_new_order_v3", "dex/src/state.rs:State::process_settle_funds", "dex/src/state.rs:State::process_consume_events", "dex/src/state.rs:State::process_send_take"]}
{"id": "C22", "title": "Quote currency conservation including fees and rebates", "statement": "At every point of every history the sum over open-orders accounts of total quote currency, corrected by fills still in the event queue, equals the market's recorded quote deposits, and the quote vault holds at least deposits plus accrued fees plus accrued referrer rebates.", "quantifier": "every history of instructions, interleaved with any direct token transfers into the vault", "why_tests_cant": "global invariant over unbounded histories", "anchors": ["dex/src/state.rs:State::process_new_order_v3", "dex/src/state.rs:State::process_settle_funds", "dex/src/state.rs:State::process_sweep_fees", "dex/src/state.rs:State::process_send_take"]}
{"id": "C23", "title": "Locked funds equal resting orders plus pending releases", "statement": "For every open-orders account at every point of every history, free never exceeds total, and the locked part of coin (quote) equals exactly the value of the account's resting asks (bids) plus the amounts still to be released by queued events of that account.", "quantifier": "every history, every account", "why_tests_cant": "relates three data structures over unbounded histories", "anchors": ["dex/src/state.rs:OpenOrders", "dex/src/state.rs:State::process_consume_events", "dex/src/matching.rs:OrderBookState::cancel_leaf_node"]}
{"id": "C24", "title": "Amounts never wrap as long as deposits plus unconsumed fills fit into 64 bits", "statement": "As long as, at the start of every transaction, a market's deposits together with what makers paid in fills not yet consumed are below 2^64 (and the order counter has room), every balance, market counter and the worth of every resting order is an exact 64-bit number: free never exceeds total, and what rests in the books plus all free balances is covered by the deposits. This holds in particular if no vault of the market ever holds more than K tokens and K times the size of its event queue plus K is below 2^64. It is enough that no more than K of either token exist in all accounts together. Without that guard the claim is false: with a huge lot size, consuming a fill can wrap an account's total to zero although fewer than 2^64 tokens exist, and the owner can then no longer settle.", "quantifier": "every history of instructions", "why_tests_cant": "overflow needs extreme values combined with long histories", "anchors": ["dex/src/matching.rs:OrderBookState::new_ask", "dex/src/matching.rs:OrderBookState::new_bid", "dex/src/state.rs:State::process_consume_events", "dex/src/state.rs:State::process_settle_funds"]}
{"id": "C25", "title": "Order slots and book agree", "statement": "At every point every resting order is recorded in exactly one slot of its owner's account with the same id and side; every occupied slot's order is either resting or has exactly one pending final out-event, never both; no slot is shared; an account never has more than 128 orders.", "quantifier": "every history, every account and slot", "why_tests_cant": "history-dependent relation between book, queue and accounts", "anchors": ["dex/src/state.rs:OpenOrders::add_order", "dex/src/state.rs:OpenOrders::remove_order", "dex/src/state.rs:State::process_consume_events"]}
{"id": "C26", "title": "Event consumption cannot get stuck", "statement": "In every reachable state the event at the head of the queue can be consumed by supplying its owner's account: the consume instruction succeeds and removes it; all queued events can be drained.", "quantifier": "every reachable state", "why_tests_cant": "a single inconsistent event would brick the market; requires all reachable states", "anchors": ["dex/src/state.rs:State::process_consume_events"]}
{"id": "C27", "title": "Event consumption is exactly-once and in order", "statement": "Consuming with any limit and any sorted set of accounts processes exactly the longest prefix of the queue, up to the limit, whose owners were supplied: each processed event changes only its owner's account and is removed once, later events stay in order, and splitting one consume into two (limits n then m) gives the same state as one consume of n+m. Who processes the events makes no difference: any two series of consume transactions, by anybody, with any accounts in any order and any limits, that leave equally many events in the queue leave every account on the chain the same.", "quantifier": "every queue content, limit and account set, every two series of consume transactions", "why_tests_cant": "all queue contents and splits", "anchors": ["dex/src/state.rs:State::process_consume_events"]}
{"id": "C28", "title": "Cancel refunds the owner in full and nobody else", "statement": "A successful cancel removes exactly the named order, makes exactly its remaining locked amount immediately withdrawable by its owner, leaves every other account's balances untouched, and cannot be performed on an order of another account.", "quantifier": "every reachable state, every order id, side and account", "why_tests_cant": "all states and ids", "anchors": ["dex/src/matching.rs:OrderBookState::cancel_order_v2", "dex/src/matching.rs:OrderBookState::cancel_leaf_node", "dex/src/state.rs:State::process_cancel_order_v2"]}
{"id": "C29", "title": "A resting order can always be cancelled by its owner", "statement": "In every reachable state, for every resting order, a cancel by the owner succeeds provided the event queue has one free place, also when the market has been disabled. Cancelling by a list of client ids succeeds whenever the queue has room for the orders it removes; cancelling by one client id succeeds when no other order slot of the account carries that id (and can fail otherwise: an order that has gone but is not yet consumed hides a resting one with the same id).", "quantifier": "every reachable state and resting order", "why_tests_cant": "absence of stuck orders needs all reachable states", "anchors": ["dex/src/matching.rs:OrderBookState::cancel_order_v2", "dex/src/state.rs:account_parser::CancelOrderV2Args", "dex/src/state.rs:State::process_cancel_order_by_client_id_v2", "dex/src/state.rs:State::process_cancel_orders_by_client_ids"]}
{"id": "C30", "title": "Settling pays exactly the free balances and always can", "statement": "A settle transfers exactly the free coin and free quote amounts to the given wallets and zeroes them, leaves locked amounts unchanged, pays the accrued referrer rebate to the referrer (or to the market's fees when none is given); in every reachable state the vaults hold enough for it.", "quantifier": "every reachable state and account", "why_tests_cant": "requires solvency over all histories", "anchors": ["dex/src/state.rs:State::process_settle_funds", "dex/src/state.rs:send_from_vault"]}
{"id": "C31", "title": "Send-take is all-or-error and leaves nothing behind", "statement": "A successful send-take gives the trader at least the stated minimum, takes at most the stated maximum (fees included), charges the wallet exactly what was traded, leaves no resting order, no open-orders change and no event owned by the dummy owner; otherwise it fails with no effect. If the trader (not one of the market's own accounts) has a wallet that covers the maximum, the other wallet has room, the vaults are not frozen, the market is enabled and the event queue has room for the rounds the match limit allows, then the call is refused only when the book gives less than the minimum: there is one outcome for all minimums up to what it gives, and above that the error says so.", "quantifier": "every reachable state and send-take parameters", "why_tests_cant": "all books and parameters", "anchors": ["dex/src/state.rs:State::process_send_take", "dex/src/matching.rs:OrderBookState::new_order"]}
{"id": "C32", "title": "Only the owner's signature moves an account's orders and funds", "statement": "An instruction that places, cancels, replaces, settles or closes for an open-orders account succeeds only if the account's recorded owner signed (a delegated prune needs the market's prune authority instead, and cannot move funds out); an instruction never changes open-orders accounts other than the one it names, except through event consumption.", "quantifier": "every state, every instruction and signer set", "why_tests_cant": "all account and signer combinations", "anchors": ["dex/src/state.rs:Market::load_orders_mut", "dex/src/state.rs:account_parser::NewOrderV3Args", "dex/src/state.rs:account_parser::SettleFundsArgs", "dex/src/state.rs:account_parser::CancelOrderV2Args", "dex/src/state.rs:account_parser::CloseOpenOrdersArgs", "dex/src/state.rs:account_parser::PruneArgs"]}
{"id": "C33", "title": "Administrative actions need their authority", "statement": "Disabling a market or sweeping fees succeeds only with the fixed authority's signature, pruning only with the market's prune authority, permissioned event cranking only with the crank authority where required, and opening accounts on a permissioned market only with the market authority; sweeping moves exactly the accrued fees and never users' deposits.", "quantifier": "every state and signer set", "why_tests_cant": "all account and signer combinations", "anchors": ["dex/src/state.rs:account_parser::DisableMarketArgs", "dex/src/state.rs:account_parser::SweepFeesArgs", "dex/src/state.rs:account_parser::PruneArgs", "dex/src/state.rs:account_parser::ConsumeEventsArgs", "dex/src/state.rs:Market::load_orders_mut"]}
{"id": "C34", "title": "Disabling a market stops trading but not withdrawal", "statement": "On a disabled market no instruction can place an order, take or open an account, while cancelling, consuming events, settling and closing remain possible; and a market once disabled stays disabled forever.", "quantifier": "every state and history after disabling", "why_tests_cant": "all later histories", "anchors": ["dex/src/state.rs:Market::load", "dex/src/state.rs:State::process_disable_market", "dex/src/state.rs:MarketState::check_flags"]}
{"id": "C35", "title": "An account can be closed only when nothing is owed to it", "statement": "Closing succeeds only if the account has no orders, no coin and no quote balance; a closed account can never be used again, and no queued event refers to it.", "quantifier": "every reachable state", "why_tests_cant": "pending events depend on history", "anchors": ["dex/src/state.rs:account_parser::CloseOpenOrdersArgs", "dex/src/state.rs:State::process_close_open_orders"]}
{"id": "C36", "title": "Cancel by client id cancels exactly the matching resting orders", "statement": "Cancelling a list of client ids removes exactly the account's resting orders whose client id is in the list (each refunded in full) and keeps all others, ignoring ids whose orders have left the book; zero is never a matching id.", "quantifier": "every reachable state and list of ids", "why_tests_cant": "all slot layouts and id multisets", "anchors": ["dex/src/state.rs:State::process_cancel_orders_by_client_ids", "dex/src/state.rs:OpenOrders::orders_with_client_ids", "dex/src/state.rs:State::process_cancel_order_by_client_id_v2"]}
{"id": "C37", "title": "Replace is cancel followed by new order, atomically", "statement": "A replace has exactly the effect of cancelling the listed client ids and then submitting the new orders one after another; if any of them fails nothing happens at all.", "quantifier": "every state and list of replacements", "why_tests_cant": "all states", "anchors": ["dex/src/state.rs:State::process_replace_orders_by_client_ids", "dex/src/state.rs:account_parser::ReplaceOrdersByClientIdsArgs"]}
{"id": "C38", "title": "Failed instructions change nothing", "statement": "Whenever an instruction returns an error or aborts, books, queues, accounts and balances are as before.", "quantifier": "every state and instruction", "why_tests_cant": "every failure point", "anchors": ["dex/src/state.rs:State::process"]}
{"id": "C39", "title": "Pool fees are bounded, rounded up and fully split", "statement": "For every u64 amount, a fee rate outside 150..999999 per million is refused; inside, the whole fee is amount*rate/1e6 rounded up and never more than the amount, the protocol, initializer and referrer shares are non-negative and sum exactly to it, the protocol share is at least a ten-thousandth of the amount and at least two fifths (rounded down) of the whole, and the referrer gets at most half the protocol share. The computation panics exactly when twice the whole fee does not fit in 64 bits. A user paying from the protocol's fee account pays nothing; a share that would return to the paying account is not charged.", "quantifier": "every u32 fee rate and u64 amount", "why_tests_cant": "rounding at isolated amounts", "anchors": ["pool/src/context.rs:Fees::from_fee_rate_and_tokens", "pool/src/context.rs:PoolContext::get_fees"]}
{"id": "C40", "title": "Creating and redeeming pool tokens never dilutes holders", "statement": "In every reachable state, a creation of n pool tokens takes each asset in proportion n/supply rounded up and mints exactly n tokens, split between the user and the fee accounts; a redemption of n burns n minus the fee and pays each asset in proportion rounded down; nothing else moves. Over any history of transactions in which the pool's administrator does not act, interleaved with outside changes, each vault's balance per outstanding pool token never decreases, so assets cannot be taken out without destroying pool tokens, and creating then redeeming no more than that leaves every vault at least as full. This needs distinct vaults that only the pool can spend from: both conditions are not checked by the program, and the property is refuted without the first.", "quantifier": "every pool state and every sequence of creations/redemptions", "why_tests_cant": "rounding accumulates over unbounded sequences", "anchors": ["pool/src/context.rs:PoolContext::get_simple_basket", "pool/src/pool.rs:Pool::process_creation", "pool/src/pool.rs:Pool::process_redemption"]}
{"id": "C41", "title": "Admin-controlled pool: only the admin changes configuration and pause blocks users", "statement": "In every history of the admin-controlled pool, the stored state of a pool changes only in a transaction signed by its recorded administrator; each administrative request has exactly its stated effect (removing an asset needs it present and its vault empty; adding needs a vault owned by the pool with a new mint; the fee stays within 150..999999; a new administrator must sign); while paused no creation, redemption or quote succeeds; only Unpause, signed by the administrator and with no vault lent, ends a pause. The converse that an unpaused pool has no lent vault is refuted: removing, unpausing and re-adding a vault bypasses the check.", "quantifier": "every state, request and signer", "why_tests_cant": "all request sequences", "anchors": ["pool/examples/admin-controlled/src/lib.rs:process_admin_request"]}
{"id": "C42", "title": "Through the permissioned proxy only the user moves the user's account and money", "statement": "On a permissioned market opened through the proxy every open-orders account in use sits at an address derived from one user and owns itself; in every history of direct and proxied calls it changes only in a proxied call signed by that user, or by the prune authority pruning, or by consuming events. An order through the proxy takes from the signing user's own wallet at most what the order declares (the quote limit of a bid, quantity times lot size of an ask), pays it to the market's vault, and leaves nobody an allowance on the wallet. Cancel, settle and close do exactly what the dex does for the derived address and succeed whenever the dex would accept them; the referral middleware admits only the named referrer's account; anything else changes nothing. Not true: that a user can use every account they open (a non-canonical bump strands it).", "quantifier": "every history of direct calls, proxied calls and other programs' actions; every middleware list with one OpenOrdersPda, instruction bytes, account list and signer set", "why_tests_cant": "quantifies over all histories, account permutations and signer sets, and over every address-derivation function without collisions", "anchors": ["dex/permissioned/src/middleware.rs:OpenOrdersPda", "dex/permissioned/src/middleware.rs:ReferralFees", "dex/permissioned/src/proxy.rs:MarketProxy::run"]}
{"id": "C43", "title": "Account framing is strict", "statement": "An account's bytes are usable as a market, order book, request queue or event queue exactly when the head and tail padding match, the flags are exactly those of that kind and the length is one the kind allows; they are usable as an open-orders account exactly when the length is right and the flags are those of open orders or still zero (its padding is written, not checked). No bytes are usable as two kinds, bids and asks included, and an account InitializeMarket accepts as fresh is none of the market's kinds. Reading the bytes gives what the loaders of the model give, records survive being written and read, and every field sits at its published offset.", "quantifier": "every byte content of every account, every record whose numbers fit their fields", "why_tests_cant": "all byte strings", "anchors": ["dex/src/state.rs:strip_header", "dex/src/state.rs:check_account_padding", "dex/src/state.rs:init_account_padding", "dex/src/state.rs:AccountFlag", "dex/src/state.rs:MarketState::check_flags", "dex/src/state.rs:OpenOrders::check_flags"]}
{"id": "C44", "title": "Ownership assertion instruction", "statement": "The assert-owner program succeeds exactly when there is at least one account, the data is exactly the 32 bytes of a program id, and the first account is owned by that program; further accounts are ignored.", "quantifier": "every account and data", "why_tests_cant": "all byte strings", "anchors": ["assert-owner/src/lib.rs:entry"]}
{"id": "C45", "title": "Pruning removes only the named account's orders and refunds them", "statement": "A prune signed by the market's prune authority removes from the book only orders of the named account, at most as many as its limit and with enough budget all of them, credits that account exactly the locked value of what was removed and touches no other account. On an enabled permissioned market the prune authority can always prune, as long as the event queue has room for the final events. The limit counts visited nodes of the books, not orders: a limit of one may remove nothing at all (refuted that it removes one).", "quantifier": "every reachable state, account and limit", "why_tests_cant": "all books and budgets", "anchors": ["dex/src/state.rs:State::process_prune", "dex/src/matching.rs:OrderBookState::remove_all"]}
{"id": "C46", "title": "Placing an order charges exactly what it trades, fees and rests", "statement": "A successful NewOrderV3 takes from the paying wallet exactly the part of the order's maximum spend (quote for a bid, quantity for an ask) not already covered by the free balance; trades the rounds the match engine reports at the resting prices, charges the fee for each, locks exactly the rested quantity at the limit price, leaves the rest of the spend free for the trader, takes one free slot for the order, and changes no other account than the named ones; the order's id carries the market's next number, which then advances by one.", "quantifier": "every reachable state, every order parameters, new or existing open-orders account", "why_tests_cant": "all books, balances and parameters", "anchors": ["dex/src/state.rs:State::process_new_order_v3", "dex/src/state.rs:invoke_spl_token"]}
{"id": "C47", "title": "No instruction takes tokens from anybody without a signature", "statement": "Whatever instruction is sent with whatever accounts, a token account loses tokens only if its owner or delegate signed, or it is a vault of the market the instruction names and the instruction is a settle, a send-take or a fee sweep; mint and owner of token accounts never change and a delegate is never added.", "quantifier": "every state of every history, every instruction bytes, account list and signer set", "why_tests_cant": "all account confusions: any account in any position", "anchors": ["dex/src/state.rs:invoke_spl_token", "dex/src/state.rs:send_from_vault", "dex/src/state.rs:State::process"]}
{"id": "C48", "title": "A market's configuration and an account's owner never change", "statement": "Once created, a market's mints, vaults, queues, books, lot sizes, fee settings, nonce and authorities are the same in every later state, its flags only ever gain the disabled bit; an open-orders account keeps its owner and market, and its flags change only when its owner closes it.", "quantifier": "every later state of every history", "why_tests_cant": "all later histories", "anchors": ["dex/src/state.rs:MarketState", "dex/src/state.rs:OpenOrders", "dex/src/state.rs:State::process"]}
{"id": "C49", "title": "Pool states and requests have exactly one encoding", "statement": "Every pool state, user request and administrative request reads back from its encoding; any bytes that are accepted as one are exactly its encoding (a state may be followed by unused bytes, a request by nothing). The encodings, and that of the paused flag, are explicit tables of fields with their widths, tags included.", "quantifier": "every state, request and byte string", "why_tests_cant": "all byte strings, including malformed and non-canonical ones", "anchors": ["pool/schema/src/schema.rs:PoolState", "pool/schema/src/schema.rs:PoolRequest", "pool/src/lib.rs:pool_entrypoint", "pool/examples/admin-controlled/src/lib.rs:AdminInstruction"]}
{"id": "C50", "title": "Quotes report each vault's portion and change nothing else", "statement": "A GetBasket request, whenever it succeeds, hands the return-buffer program exactly the portion of each vault for the asked amount (rounded up for creation, down for redemption), and changes no account other than the buffer. That the redemption quote equals what redeeming pays is refuted: the quote leaves out the fee.", "quantifier": "every reachable state and request", "why_tests_cant": "all pool states and amounts", "anchors": ["pool/src/lib.rs:process_instruction", "pool/src/context.rs:RetbufAccounts::write_data", "pool/src/context.rs:PoolContext::get_simple_basket"]}
{"id": "C54", "title": "Everyone can leave with everything", "statement": "From every reachable state, the owner of an open-orders account can, by a finite sequence of transactions that all succeed and carry only the owner's signature (plus the crank authority's on a market that has one), have every pending event consumed, every own order cancelled, every coin and quote unit the account is worth paid into the owner's chosen wallets, and the account closed with its rent returned. The sequence takes exactly (pending events) + 2*(own orders) + 2 transactions. Other traders' orders stand, their accounts change only by their own pending events, and nothing else changes. It does not matter whether the market has since been disabled.", "quantifier": "every reachable state, market, account, set of resting orders and queue of pending events", "why_tests_cant": "existence of a successful exit path must hold from all reachable states, including ones no test script constructs; a single state where cancellation, consumption or settlement panics strands funds", "anchors": ["dex/src/state.rs:process_consume_events", "dex/src/state.rs:process_cancel_order_v2", "dex/src/state.rs:process_settle_funds", "dex/src/state.rs:process_close_open_orders"]}
{"id": "C51", "title": "No order is placed after its time limit", "statement": "Whenever NewOrderV3 or a Replace instruction succeeds, every order it carries is within its time limit: the current time is at most max_ts, or max_ts is the largest timestamp. An instruction carrying an expired order leaves every account unchanged, including when other orders in the same batch are still valid. Apart from this, no instruction's result depends on the time.", "quantifier": "every state, instruction, account list and pair of times", "why_tests_cant": "all timestamps including negative and boundary values, all batches; that time matters nowhere else is a statement about pairs of executions", "anchors": ["dex/src/state.rs:process_new_order_v3", "dex/src/state.rs:process_replace_orders_by_client_ids"]}
{"id": "C52", "title": "A new market is exactly what was asked for", "statement": "If InitializeMarket succeeds then five accounts of the program that were blank become the market, its queues and its books, with exactly the lot sizes, fee rate, dust threshold, nonce, mints, vaults and authorities of the instruction; the flags say permissioned and crank authority exactly when those accounts were given; no order rests, no event waits, no open-orders account belongs to it, nothing is deposited; both vaults hold the right mint and belong to the market's derived address with no delegate and no close authority; and no other account changes. With suitable blank accounts anybody can open a market. That every market that opens can be used is refuted: zero lot sizes and one account for both books are accepted.", "quantifier": "every reachable state, instruction and account list", "why_tests_cant": "all account lists including aliased accounts and partial authority lists", "anchors": ["dex/src/state.rs:process_initialize_market", "dex/src/state.rs:InitializeMarketArgs"]}
{"id": "C53", "title": "A funded order is accepted", "statement": "On an enabled market, NewOrderV3 succeeds for every order with positive price, quantity and budget that has not expired, when: the open-orders account belongs to the signing owner, who is not one of the market's own accounts, and has a free slot (or is a blank rent-exempt account on an unpermissioned market); the payer's token account holds what the order needs beyond the account's free balance and the owner may spend it; the vaults are not frozen; no amount would exceed 64 bits; with self-trade behaviour AbortTransaction (and not post-only) the order does not get as far as an own order of that account: for every own order within the limit price on the other side, the orders ahead of it already fill the new order, use up its budget or use up its matching rounds; and the event queue has room for four events per matching round and four more. Nothing else about the state of the market, the books, the queue or other traders' accounts can make it fail: no full book, crossed order, panic, arithmetic overflow or stuck loop.", "quantifier": "all reachable program states and histories, all markets, accounts, order types, sides, prices, sizes, limits, self-trade behaviours and clocks", "why_tests_cant": "Acceptance depends on the shape of the whole book and queue: every path of the matching loop, including evictions from a full book, self trades and fee rounding, has to be free of failures. Tests place a few orders on small books and cannot show that no state makes a funded order fail.", "anchors": ["dex/src/state.rs:State::process_new_order_v3", "dex/src/matching.rs:OrderBookState::new_order", "dex/src/matching.rs:OrderBookState::new_ask", "dex/src/matching.rs:OrderBookState::new_bid"]}
{"id": "C55", "title": "What the client library builds is what the program takes", "statement": "For every builder of instructions in the client library and all its arguments: the data decodes on chain to the call with those arguments; exactly the right accounts are marked as signers; whatever the program changes when it succeeds is among the accounts marked writable. Built with the market's own accounts, an order, a send-take, a cancel (by id, client id or client ids), settle, close, prune, both cranks, the opening of an account, the sweep of fees and the disabling of a market go through from every reachable state under the conditions of C26, C29, C30, C31, C34, C45 and C53, and opening a market yields the market described by the arguments. A crank has to be given the accounts in increasing order (refuted otherwise: it then may succeed and do nothing), and a crank authority given without a prune authority is silently dropped (refuted that it is kept).", "quantifier": "all fifteen builders, all arguments, all reachable states", "why_tests_cant": "agreement of two account lists and two codecs for all arguments, and success from every reachable state, are universally quantified; tests build a handful of calls", "anchors": ["dex/src/instruction.rs:initialize_market", "dex/src/instruction.rs:new_order", "dex/src/instruction.rs:consume_events", "dex/src/instruction.rs:consume_events_permissioned", "dex/src/instruction.rs:cancel_order", "dex/src/instruction.rs:settle_funds", "dex/src/instruction.rs:send_take", "dex/src/instruction.rs:prune"]}
{"id": "C56", "title": "New accounts have paid their rent, and lamports move only by closing", "statement": "Whenever an instruction turns a blank account into an open-orders account, that account has exactly the size of one and is rent exempt at that moment; the queues, books, vaults and mints of a newly opened market are rent exempt (the market account itself need not be: refuted). No instruction changes the size or owner program of any account, and none but CloseOpenOrders changes the lamports of any account.", "quantifier": "every instruction, account list, clock and state of every history", "why_tests_cant": "absence of any instruction and account combination that opens an unpaid account or drains lamports needs all of them", "anchors": ["dex/src/state.rs:Market::load_orders_mut", "dex/src/state.rs:account_parser::InitializeMarketArgs", "dex/src/state.rs:State::process_close_open_orders"]}
{"id": "C57", "title": "Markets do not touch each other", "statement": "An instruction concerns at most one market: the record, books, queues and open-orders accounts of every other market are afterwards exactly what they were, whatever accounts the caller passes in, and no other market's vaults lose tokens. (Another market's vault may gain: SettleFunds pays into any token account, so a trader can pay their own funds into one; refuted as equality.)", "quantifier": "every instruction, account list and state of every history with any number of markets", "why_tests_cant": "mixing accounts of different markets in one instruction has unboundedly many combinations and every loader has to refuse them", "anchors": ["dex/src/state.rs:Market::load", "dex/src/state.rs:Market::load_orders_mut", "dex/src/state.rs:Market::load_event_queue_mut", "dex/src/state.rs:account_parser"]}
{"id": "C58", "title": "The crank program empties the queue, and out-of-date data does no harm", "statement": "The addresses the crank program reads off a market's account are the market's own, and the length it shows is the number of waiting events. The one-off command finds nothing to do exactly when the queue is empty; otherwise its instruction goes through and consumes a start of the queue, exactly as many events as owners plus four when there are at most 32 owners (with 33 owners it may be stuck for ever: refuted). A turn of the loop never fails on a market whose request queue is at least 132 bytes (it fails on shorter ones: refuted), sends something exactly when it has work, and what it sends goes through and serves the queue as far as the named accounts and limits allow, by at least one event. Instructions built from any earlier data are never refused and consume a start of the queue of that moment; on a market with a crank authority all are refused. n turns without interference consume at least n events or all of them, each booked once and in order.", "quantifier": "every history, market, event queue content and position in its ring, option setting, slot and stale data, any number of turns", "why_tests_cant": "the result depends on the position of the ring, the order of addresses and the interleaving of fetching and sending; whether the queue is always emptied is a statement about unboundedly many turns", "anchors": ["dex/crank/src/lib.rs:consume_events_loop", "dex/crank/src/lib.rs:consume_events_instruction", "dex/crank/src/lib.rs:parse_event_queue", "dex/crank/src/lib.rs:remove_dex_account_padding", "dex/crank/src/lib.rs:get_keys_for_market"]}
{"id": "C59", "title": "Listing a market with the crank program works", "statement": "If one of the first hundred nonces gives a vault owner, the five addresses are unused and the payer can afford the rent, list_market creates the accounts and, the vaults being in place, its InitializeMarket goes through, opens the market that was asked for, and the keys it returns are that market's. A new open-orders account is created and initialised on any open market. Its order and settle instructions do what the client library's do; MatchOrders does nothing.", "quantifier": "every history, all addresses, lot sizes, rents and states of the other accounts", "why_tests_cant": "sizes, owners, rent and account order have to agree between a client and the program for all states in which a market may be listed", "anchors": ["dex/crank/src/lib.rs:list_market", "dex/crank/src/lib.rs:gen_listing_params", "dex/crank/src/lib.rs:create_dex_account", "dex/crank/src/lib.rs:init_open_orders", "dex/crank/src/lib.rs:place_order", "dex/crank/src/lib.rs:settle_funds"]}
{"id": "C60", "title": "The example program admits only holders of the token, and nobody goes around it", "statement": "On a market that names the example permissioned-markets program for opening accounts, pruning and consuming: no instruction sent to the dex itself changes an open-orders account in use; through the program such an account changes only by a call that shows the identity token and is signed by the user the account is derived from, or by a prune or permissioned crank that does not show the token. With the token, opening, ordering, cancelling, settling and closing do exactly what the proxy library does (C42), and are refused without it; pruning and permissioned cranking are refused with it. A settlement must name an account of the program's referrer. Anyone, signing nothing and showing any account but the token, can have any user's orders pruned and the event queue served; so it is not true that only users whose token was revoked are pruned (refuted). Any other instruction changes nothing.", "quantifier": "every history of direct calls, calls of the example program and acts of other programs; all account lists, instruction data, users and markets", "why_tests_cant": "the claim is about every sequence of calls and every account list an attacker may choose, through two programs at once", "anchors": ["dex/tests/permissioned/programs/permissioned-markets/src/lib.rs:entry", "dex/tests/permissioned/programs/permissioned-markets/src/lib.rs:Identity", "dex/tests/permissioned/programs/permissioned-markets/src/lib.rs:prune_authority", "dex/permissioned/src/proxy.rs:MarketProxy::run"]}
{"id": "C61", "title": "The life of a resting order", "statement": "Over any further history of a market, the events that name an order resting now tell its story: trades of part of it at its own price, reductions, and at most one end - sold out, or the rest of it released in full - after which nothing more names it. What is left of it is on the book with the same owner, slot, id and client id, or it is gone and no order ever has its id again. What it locked equals what was paid in trades plus what was released plus what still rests; what was paid fetched exactly its own price; a final event is there exactly when nothing rests. Every such event has its cause: a trade comes with an order of somebody else; a release comes with an instruction signed by the owner of the account (a cancellation, a replacement or an order that met its own), with a prune signed by the prune authority, or with a new order when every order of the side that rests before and after has priority over it (and, for a plain new order, the side was full).", "quantifier": "every history, every further sequence of transactions (any bytes, accounts, signers) and acts of other programs, every resting order", "why_tests_cant": "the claim spans any number of transactions by any number of users; a test follows one order through a few steps", "anchors": ["dex/src/state.rs:OrderBookState", "dex/src/matching.rs:match_orders", "dex/src/matching.rs:cancel_order", "dex/src/matching.rs:new_bid", "dex/src/matching.rs:new_ask", "dex/src/critbit.rs:Slab"]}
{"id": "C62", "title": "A pool can be used, and the simple pool has no ruler", "statement": "In a pool that is not paused, a creation is carried out whenever the accounts are the pool's own and in order, the user signs and can pay, and there is room; a holder of pool tokens can redeem them under the same conditions. A pool whose program overrides nothing has no administrator: over any history its stored state stays what initialisation wrote, its vaults stay its own and the assets behind each pool token never fall. (Findings: without the fee account of the pool's creator every creation and redemption is refused, so the creator, who has no rights over the pool, can stop it by closing that account.)", "quantifier": "every reachable state, call, amount; every history of any transactions and acts of other programs", "why_tests_cant": "acceptance for all states and amounts, and immutability over all histories, cannot be enumerated", "anchors": ["pool/src/pool.rs:Pool", "pool/src/context.rs:PoolContext", "pool/src/lib.rs:PoolProcessor", "pool/examples/simple/src/lib.rs:SimplePool"]}
{"id": "C63", "title": "Orders are served by price and then by time, over whole histories", "statement": "While an order rests on a market, no order of its side with a worse price, and none with the same price that was placed later, trades: whenever one of those trades, an earlier event of the market has already said that this order is gone (sold out, cancelled, pruned, evicted or withdrawn in a self-trade). It does not matter when or by whom the other order was placed, in which transactions, or which instructions brought the takers. An order that comes to the book later at the same price ranks behind, and the id of an order says its price and its place in time.", "quantifier": "every reachable state, resting order and further history of any transactions with any bytes, accounts, signers and acts of other programs", "why_tests_cant": "histories, interleavings and books cannot be enumerated; a wrong tie-break shows only after particular sequences of placements and cancellations", "anchors": ["dex/src/matching.rs:OrderBookState", "dex/src/matching.rs:OrderBookState::process_orderbook_request", "dex/src/critbit.rs:Slab", "dex/src/state.rs:RequestQueueHeader", "dex/src/state.rs:RequestQueue"]}
{"id": "C64", "title": "Nobody else can make a trader who signs nothing worse off", "statement": "Take any account on a market and any further history in which its owner signs no transaction, whatever all others do: orders, takes, cancellations, pruning, event processing, sweeps, failing transactions. At the end the account is still there with the same owner; the amounts it can withdraw at once, and its referrer rebates, are not less; no order of it appeared and none grew or changed its price. All it has on the market (locked or free, counting trades whose events still wait in the queue) changed exactly by this: of every bid that rested at the start some lots, at most those no longer resting, were bought at the price of the bid, and of every ask some were sold at the price of the ask, with no fee. Every event queued for the account is about one of its orders that rested at the start.", "quantifier": "every reachable state, account, and further history of any transactions with any bytes, accounts and signers other than the owner, and acts of other programs", "why_tests_cant": "it quantifies over everything all other parties could do in any order; a test tries a few adversaries", "anchors": ["dex/src/state.rs:State::process_consume_events", "dex/src/state.rs:State::process_prune", "dex/src/matching.rs:OrderBookState", "dex/src/state.rs:State::process_new_order_v3", "dex/src/state.rs:State::process_settle_funds"]}
{"id": "C65", "title": "An order trades all it can, at the best prices there are", "statement": "Take any accepted new order or send-take. Best execution: choose any lots of the orders resting on the other side, none of them the account's own, as many in total as the order traded; buying these would not have cost less, and selling to them would not have brought more, than the trades the queued events report. No early stop (unless the order is post-only): every meeting takes all of the resting order, all that is left of the incoming one, or as many lots as the money left pays for with the fee; and the last meeting is the last because the allowed number took place, nothing of the order is left, or every order still on the other side is outside the limit or one lot of it with its fee costs more than the money left. Book, quantity, money and allowed number of meetings determine the trades completely.", "quantifier": "every reachable state, every order and send-take of any type, size, price and limits, and every alternative choice of lots", "why_tests_cant": "it compares one execution with all alternative ways to trade, in every book; a test compares a few", "anchors": ["dex/src/matching.rs:OrderBookState::new_order", "dex/src/matching.rs:OrderBookState::new_bid", "dex/src/matching.rs:OrderBookState::new_ask", "dex/src/fees.rs:FeeTier::remove_taker_fee"]}
{"id": "C66", "title": "A trader's account is a balanced statement", "statement": "Take any stretch of a market's history, with any transactions signed by anybody, and any open-orders account. What the account has (its totals plus the resting-order trades whose events are not yet processed) changes exactly by: plus what the vaults gained in its own new orders and replaced orders, minus the free amounts paid out in its own settlements, plus what the fill events of the account queued in that stretch say was received, minus what they say was paid, fee included. No other instruction changes it: not other traders' orders, cancels, event processing, pruning, fee sweeps or markets. So from before an account is opened until after it is closed, payouts equal deposits plus trades, in coin and in quote currency. Such a statement exists for every account and every stretch.", "quantifier": "every history, every stretch of it of any length, every market with two distinct vaults and every account, opened and closed any number of times", "why_tests_cant": "a test adds up a few transactions; a wrong unit in any instruction by anybody at any time breaks the balance", "anchors": ["dex/src/state.rs:State::process_new_order_v3", "dex/src/state.rs:State::process_settle_funds", "dex/src/state.rs:State::process_consume_events", "dex/src/state.rs:State::process_cancel_order_v2", "dex/src/state.rs:State::process_close_open_orders", "dex/src/state.rs:State::process_prune", "dex/src/state.rs:OpenOrders"]}
{"id": "C67", "title": "Errors are true: a refused order or cancel says why", "statement": "A new order with the right accounts, whose amounts fit in 64 bits, is either accepted or refused with one of six errors, and the stated reason is then a fact: OrderMaxTimestampExceeded only if the time limit has passed; InsufficientFunds only if the amount to lock does not fit in 64 bits, or the paying account or the delegated allowance holds less than what is due; TooManyOpenOrders only if all 128 slots are taken; WouldSelfTrade only if the order asked to abort, is not post-only, and gets as far as an own order within its limit price: the orders ahead of that one hold less than the order's quantity, are fewer than its rounds, and leave a bid enough budget for one more lot; EventQueueFull only if the events that this very order would report, trading as the rules say, are more than the free places (or it would meet an own order and abort); TransferFailed only if something is due and the signer may not pay from that account, is one of the market's accounts, or the vault would overflow. It never aborts. Whatever accounts are listed, every error other than those about the accounts themselves is true in the same sense. Cancelling, with the right accounts, works or reports one of: OrderNotFound (no such order rests on that side), OrderNotYours (it rests, and belongs to somebody else), ClientIdNotFound (no slot in use has that id), EventQueueFull (no free place). Pruning fails only when the events do not fit, closing only when the account is in use.", "quantifier": "every history, every market with positive lot sizes and distinct books, every order and cancel, every list of accounts, every clock", "why_tests_cant": "the errors are raised in many places, in the middle of matching too; a test shows one path to each error and cannot show that there is no other", "anchors": ["dex/src/state.rs:State::process_new_order_v3", "dex/src/state.rs:State::process_cancel_order_v2", "dex/src/state.rs:State::process_cancel_order_by_client_id_v2", "dex/src/state.rs:State::process_cancel_orders_by_client_ids", "dex/src/state.rs:State::process_prune", "dex/src/state.rs:State::process_close_open_orders", "dex/src/matching.rs:OrderBookState::new_order", "dex/src/error.rs:DexErrorCode"]}
{"id": "C68", "title": "Error numbers identify errors", "statement": "Every error code has the number clients know it by, no two codes share a number, and reading a number back gives the code. A number that is no code's reads as AssertionError. A failed internal check reports a number from which the source file and the line can be read; it is never the number of a code, and two failed checks in different places report different numbers.", "quantifier": "every error code, every 32-bit number, every source file and every line below 65536", "why_tests_cant": "inserting one variant renumbers all that follow; tests compare names, which move along with the numbers", "anchors": ["dex/src/error.rs:DexErrorCode", "dex/src/error.rs:AssertionError", "dex/src/error.rs:SourceFileId", "dex/src/error.rs:DexError"]}
{"id": "C69", "title": "Errors of SendTake are true", "statement": "A SendTake with the right accounts, whose amounts fit in 64 bits, works or is refused with one of four errors, and the stated reason is then a fact about the trades it would have made, namely those price-time priority gives it on the book as it stood: MinAmountNotMet only if they bring less than the minimum asked for; EventQueueFull only if their events do not fit in the queue; InsufficientFunds only if the paying wallet, or the delegated allowance, holds less than they cost including the fee; TransferFailed only if something is due and the signer may not pay from that wallet or is one of the market's accounts, or a vault or the receiving wallet would overflow. It never aborts. Whatever accounts are listed, as long as the wallets are not the market's vaults, every error other than those about the accounts themselves is true in the same sense.", "quantifier": "every history, every market with positive lot sizes and distinct books, every SendTake, every list of accounts with wallets other than the vaults, every clock", "why_tests_cant": "whether a minimum is met depends on the whole book, the fee tier and the match limit; a test shows one book per error", "anchors": ["dex/src/state.rs:State::process_send_take", "dex/src/matching.rs:OrderBookState::new_order", "dex/src/state.rs:send_from_vault", "dex/src/error.rs:DexErrorCode"]}
{"id": "C70", "title": "Errors of a replace are true", "statement": "A replace (one or up to eight orders by client id, all on one side) with the right accounts, whose amounts fit in 64 bits, works or is refused, and the reason given is then a fact: either EventQueueFull because the events of the cancellations do not fit, or the error of the first new order that cannot be placed, which is true, in the sense of C67, of the books and balances as the cancellations and the earlier orders leave them. It never aborts. Whatever accounts are listed, every error other than those about the accounts themselves is true in the same sense.", "quantifier": "every history, every market with positive lot sizes and distinct books, every replace, every list of accounts, every clock", "why_tests_cant": "a later order of a replace meets the state the earlier ones leave; a test shows one sequence", "anchors": ["dex/src/state.rs:State::process_replace_orders_by_client_ids", "dex/src/state.rs:State::process_new_order_v3", "dex/src/error.rs:DexErrorCode"]}
{"id": "C71", "title": "The exchange's own books balance", "statement": "Take any stretch of a market's history, with any transactions signed by anybody, except that nobody has the market pay into its own vaults. The traders together receive exactly the coin that traders pay: the exchange keeps none. What the traders pay in quote currency beyond what traders receive (by the fill events, fee included, and for traders without an account by what the vaults gained or lost) is the exchange's income, and it is to the last unit the change of the fees held and of the money held for referrers, plus what was swept, plus what referrers were paid. So sweeps and referrers are never paid more than was held and earned, never out of a trader's money. The income of any stretch is never negative.", "quantifier": "every history, every market with positive lot sizes, distinct books and distinct vaults, every stretch of transactions with any bytes and accounts (none paying into the market's own vaults)", "why_tests_cant": "the balance must hold over any number of trades, settlements and sweeps in any order; a test adds up one history", "anchors": ["dex/src/matching.rs:OrderBookState::new_bid", "dex/src/matching.rs:OrderBookState::new_ask", "dex/src/state.rs:State::process_send_take", "dex/src/state.rs:State::process_settle_funds", "dex/src/state.rs:State::process_sweep_fees", "dex/src/state.rs:MarketState::load"]}
{"id": "C72", "title": "Referral money that is nobody's stays locked in the vault for ever", "statement": "Of the money a market holds for referrers, the part that is to no account's credit, nor will be once the queued events are processed, can never be paid to anyone. It grows by the whole referral share of every SendTake, and by the credit of every account that is closed with referral money still to its credit; no other instruction changes it, and nothing makes it smaller. After any transactions, signed by anybody, the quote vault still holds it on top of everything that traders, the fee sweeper and referrers can be paid.", "quantifier": "every history, every market with positive lot sizes and distinct books, every successful instruction, and every stretch of transactions with any bytes and accounts after it", "why_tests_cant": "that no sequence of instructions ever frees the money is a claim about all futures; a test tries some", "anchors": ["dex/src/state.rs:State::process_send_take", "dex/src/state.rs:State::process_close_open_orders", "dex/src/state.rs:State::process_settle_funds", "dex/src/state.rs:State::process_consume_events", "dex/src/matching.rs:OrderBookState::new_bid", "dex/src/matching.rs:OrderBookState::new_ask"]}
{"id": "C73", "title": "Asking for more never gets less, and only the other side of the book matters", "statement": "Take two successful orders (limit orders, immediate-or-cancel orders or SendTakes, in any combination), placed in states and on markets with the same lot sizes and the same orders on the other side of the book; everything else may differ. If the second has as generous a limit price, asks for as many lots, offers as much money (if buying), allows as many meetings, pays no higher fee rate, and has the same own orders on the other side treated alike, then it trades as much as the first, in all and with every single resting order. Hence on the same terms the different kinds of orders trade the same amounts with the same resting orders, whoever sends them; and whether the crank has run in between makes no difference to what an order trades.", "quantifier": "every two states of every two histories, every two markets with positive lot sizes and distinct books, every two successful instructions of these kinds, any accounts and clocks", "why_tests_cant": "it compares two runs of the matching loop, with fees, rounding, money limits and meeting limits, over every book; the two may part after any number of meetings", "anchors": ["dex/src/matching.rs:OrderBookState::new_order", "dex/src/matching.rs:OrderBookState::new_bid", "dex/src/matching.rs:OrderBookState::new_ask", "dex/src/state.rs:State::process_new_order_v3", "dex/src/state.rs:State::process_send_take", "dex/src/state.rs:State::process_consume_events", "dex/src/fees.rs:FeeTier::taker_rate"]}
{"id": "C74", "title": "A trader never gains or loses more than the orders of the account allow", "statement": "Over any stretch of a history, the coin an account buys, the coin it sells and the quote currency it spends (fees included), each together with what its resting orders may still trade at the end, are at most what its resting orders could trade at the start plus what the orders placed for it in between asked for: quantity times lot size for coin, the money limit for quote currency. Counting deposits and payments, the account therefore gains no more coin than its bids asked for, loses no more coin than its asks offered, and loses no more quote currency than its bids offered.", "quantifier": "every history, every market with positive lot sizes and distinct books, every account, every sequence of transactions with any bytes, accounts and signers, interleaved with anything the rest of the chain may do", "why_tests_cant": "it is the final assertion of the repository's fuzz harness (dex/fuzz/fuzz_targets/multiple_orders.rs), which can only sample it over bounded sequences of one kind of transactions; it spans any number of partial fills, replacements, evictions and cancellations", "anchors": ["dex/src/matching.rs:OrderBookState::new_order", "dex/src/matching.rs:OrderBookState::new_bid", "dex/src/matching.rs:OrderBookState::new_ask", "dex/src/state.rs:State::process_new_order_v3", "dex/src/state.rs:State::process_send_take", "dex/src/state.rs:State::process_consume_events", "dex/src/state.rs:State::process_settle_funds", "dex/fuzz/fuzz_targets/multiple_orders.rs"]}
{"id": "C75", "title": "A backlog of unprocessed events keeps nobody out", "statement": "However many events wait in a market's queue, even when it is full, there is one transaction per waiting event, needing no signature at all (on a permissioned market with a crank authority: that authority's), after which the queue is empty, the books and all token accounts are as before and each account has been credited its own events; and then every resting order can be cancelled by its owner, and every order or SendTake with up to 31 matching rounds that was funded and in order before, from an account with fewer than 128 resting orders, is carried out. The market can never get into a state in which it is stuck.", "quantifier": "every history, every market with positive lot sizes and distinct books, every content of books and queue, every trader, order and clock", "why_tests_cant": "it promises that a way out exists from every reachable state, for all traders at once; tests visit a few states and never a proof that no jammed state is reachable", "anchors": ["dex/src/state.rs:State::process_consume_events", "dex/src/state.rs:State::process_new_order_v3", "dex/src/state.rs:State::process_cancel_order_v2", "dex/src/state.rs:State::process_send_take", "dex/src/state.rs:EventQueue", "dex/src/matching.rs:OrderBookState::new_order"]}
{"id": "C76", "title": "Each resting order gets its share, and splitting an order changes nothing", "statement": "When an order (of any type but post-only) or SendTake trades n lots in all, each resting order of another account trades exactly what is left of n after the orders served before it (better price, or the same price and earlier), up to its own quantity; own orders have no part; and the money exchanged is the sum of these parts at the resting orders' prices. If no own order is within the limit and meetings and money suffice, n is the quantity asked for or all there is within the limit, whichever is less. Hence a trader who splits an order into parts trades with the same resting orders, as much with each and for the same money, as with one order trading as much.", "quantifier": "every history, every market, every book, every order and SendTake, every way of dealing with own orders, fee tier and amount of money, every split", "why_tests_cant": "it is a closed formula for the outcome of matching over books of any size; tests compare single runs with expected numbers", "anchors": ["dex/src/matching.rs:OrderBookState::new_bid", "dex/src/matching.rs:OrderBookState::new_ask", "dex/src/matching.rs:OrderBookState::new_order", "dex/src/state.rs:State::process_new_order_v3", "dex/src/state.rs:State::process_send_take", "dex/src/critbit.rs:Slab"]}
{"id": "C77", "title": "Trading back and forth against standing orders never pays", "statement": "While some traders are away and sign nothing, nobody makes money out of their resting orders by trading back and forth: whatever transactions everybody else sends, in any number and order and through any accounts or none, what they gain by trading, taken together, is worth at most minus the income of the exchange at every price between the bids and the asks of the absent traders. So if they end with no less coin they have lost at least the fees in quote currency, and if they end with no less quote currency they have no more coin.", "quantifier": "every history, every market, every set of absent traders and of their accounts, every sequence of transactions of all others (any bytes, any accounts, nobody having the market pay into its own vaults), every fair price", "why_tests_cant": "it denies any profitable sequence of transactions whatever; tests try a few sequences", "anchors": ["dex/src/state.rs:State::process", "dex/src/matching.rs:OrderBookState::new_bid", "dex/src/matching.rs:OrderBookState::new_ask", "dex/src/state.rs:State::process_send_take", "dex/src/fees.rs:FeeTier"]}
{"id": "C78", "title": "Nobody can keep a trader waiting", "statement": "Events are processed strictly in the order they were queued, whoever processes them. Once the events waiting now have been processed, a trader who signs nothing meanwhile can withdraw everything the account has now (counting trades whose events were still waiting) except what its orders on the book lock, whatever others do and however many events they queue behind. If the account has no order on the book, it is then free to the last unit and no slot is in use, so all of it can be withdrawn and the account closed.", "quantifier": "every history, every market, every account, every sequence of transactions signed by others (any bytes, any accounts)", "why_tests_cant": "it denies that any behaviour of others delays a trader; tests try particular interleavings", "anchors": ["dex/src/state.rs:State::process_consume_events", "dex/src/state.rs:Queue", "dex/src/state.rs:OpenOrders", "dex/src/state.rs:State::process_prune", "dex/src/matching.rs:OrderBookState"]}
{"id": "C79", "title": "Sweeping, disabling and opening accounts always work; a disabled market's fees are stuck", "statement": "While a market is not disabled, its fee sweeper can at any time collect all the fees into any open quote-currency token account with room for them, the disable authority can disable it whatever its state, and anybody can open an open-orders account from an empty rent-exempt account of the right size (on a permissioned market together with the market's authority). Once a market is disabled, whatever fees it has not paid out stay in its vault for ever, beside everything owed to traders and referrers, because no sweep of it can succeed.", "quantifier": "every history, every market in every state, every later sequence of transactions", "why_tests_cant": "it promises success in all reachable states, and denies every later way of collecting the fees", "anchors": ["dex/src/state.rs:State::process_sweep_fees", "dex/src/state.rs:State::process_disable_market", "dex/src/state.rs:State::process_init_open_orders", "dex/src/state.rs:MarketState::load", "dex/src/state.rs:account_parser"]}
{"id": "C80", "title": "Only the named accounts matter, other programs' accounts are untouched, and independent transactions commute", "statement": "What an instruction does depends only on its data, the clock and the accounts in its list, and it changes no other account. Even a listed account is never written if it belongs neither to the dex nor to the token program, except that closing an open-orders account may send it lamports. Therefore two transactions neither of which changes an account the other names give the same final state in either order; in particular two transactions (not closing) that share neither a token account nor an account of the dex.", "quantifier": "every instruction, every account list, every pair of states agreeing on it, every pair of transactions in every reachable state", "why_tests_cant": "it compares all pairs of states that differ anywhere else, and all pairs of transactions", "anchors": ["dex/src/state.rs:State::process", "dex/src/state.rs:account_parser", "dex/src/state.rs:MarketState::load_bids_mut", "dex/src/state.rs:MarketState::load_event_queue_mut", "dex/src/state.rs:send_from_vault"]}
{"id": "C81", "title": "Changing one's mind is free: cancelling an order that met nothing undoes it", "statement": "If an order came to rest and every order that stood on the book before still stands there as it was, then cancelling it right away leaves both sides of the book and the fees exactly as before the order; the payer has paid exactly what was missing from the account's free balance, all of it is now free in the account, and nobody else's account or tokens have changed.", "quantifier": "every reachable state, every order of either side and any type that rests without meeting anything, every cancel of it", "why_tests_cant": "it compares the states before and after for all books and all accounts", "anchors": ["dex/src/state.rs:State::process_new_order_v3", "dex/src/matching.rs:OrderBookState::cancel_order_v2", "dex/src/matching.rs:OrderBookState::new_bid", "dex/src/matching.rs:OrderBookState::new_ask"]}
{"id": "C82", "title": "No transaction makes the program abort, save in four cases that can be seen beforehand", "statement": "In any reachable state with balances below 2^59 (lamports below 2^60) and any instruction data and accounts whose markets have sound parameters, processing the instruction either works or returns an error: no checked arithmetic, unwrap, assertion or index in the instruction's code fails. The only exceptions are an instruction the program has removed, a replace naming fewer than eight accounts, an unused account of the program of the wrong size passed as the open-orders account, and a take that offers 2^64 units or more of the coin; the first two always abort.", "quantifier": "every reachable state, every byte string, every list of accounts, every clock", "why_tests_cant": "every arithmetic operation and unwrap must be safe for all states of the book, queues and accounts", "anchors": ["dex/src/state.rs:State::process", "dex/src/state.rs:State::process_new_order_v3", "dex/src/state.rs:State::process_send_take", "dex/src/state.rs:State::process_consume_events", "dex/src/matching.rs:OrderBookState::process_orderbook_request"]}
{"id": "C83", "title": "An immediate-or-cancel order followed by a settlement is an exact swap, and the same one as a send-take", "statement": "Whoever places an immediate-or-cancel order and then settles pays exactly what the order's trades cost, fee included, and receives exactly what they brought, plus whatever was free in the account; nothing of the order stays on the book or in the account, nobody else's account changes, and the market's counters move by just these amounts. If nothing was free in the account and it has no order on the other side of the book, a send-take on the same terms from the same state would have left every token account with the same amount, and the same market counters, books, accounts of others and events about them.", "quantifier": "every reachable state, every order, account list and clock for which the instructions succeed", "why_tests_cant": "two different code paths must agree for every book, fee tier, size, limit and rounding", "anchors": ["dex/src/state.rs:State::process_send_take", "dex/src/state.rs:State::process_new_order_v3", "dex/src/state.rs:State::process_settle_funds", "dex/src/matching.rs:OrderBookState::process_orderbook_request"]}
{"id": "C84", "title": "No transaction makes or destroys tokens or lamports", "statement": "Whatever instruction is sent with whatever accounts, and whether it succeeds or fails: no token account appears or disappears, the amounts of each token in all token accounts together stay what they were, and so do the lamports of the accounts of the transaction together.", "quantifier": "every state of every history with no guard, all instruction bytes, account lists, signers and clocks, every token", "why_tests_cant": "every instruction, with every aliasing of vaults, wallets and destinations, must keep every total", "anchors": ["dex/src/state.rs:State::process", "dex/src/state.rs:State::process_close_open_orders", "dex/src/state.rs:send_from_vault", "dex/src/state.rs:invoke_spl_token"]}
{"id": "C85", "title": "A transaction of several instructions is all of them in turn, or nothing", "statement": "A transaction that bundles several instructions either leaves every account as it was, or every instruction succeeded and the result is what they give one after another in transactions of their own. So the state after it is a state of a history: it makes and destroys no tokens, and what is proved of guarded histories holds if the guard holds before each of its instructions.", "quantifier": "every state, every list of instructions with any bytes, accounts, signers and clocks", "why_tests_cant": "the instructions of a bundle can be any, in any number and order, and any of them may fail", "anchors": ["dex/src/lib.rs:process_instruction", "dex/src/state.rs:State::process"]}
{"id": "C86", "title": "A pool makes and burns pool tokens exactly as their mint records, and no other token", "statement": "Whatever request a pool program accepts: no token account appears or disappears, the recorded supply changes only for the mint of the pool that was called, and what all accounts together hold of any token changes by exactly as much as its recorded supply. So the assets of the basket are only moved, and the supply that baskets are priced by stays the number of pool tokens there are.", "quantifier": "every reachable state, every request, account list and signer, the simple and the administered pool", "why_tests_cant": "every mixture of fee accounts, user accounts and vaults that may coincide must keep every total", "anchors": ["pool/src/context.rs:PoolContext::mint_tokens", "pool/src/context.rs:PoolContext::burn_tokens_and_collect_fees", "pool/src/context.rs:PoolContext::transfer_basket_from_user", "pool/src/context.rs:PoolContext::transfer_basket_to_user", "pool/src/lib.rs:PoolProcessor::process_instruction"]}
{"id": "C87", "title": "The order counter moves by one for an order, so that a limit on supply is the only guard left", "statement": "An instruction moves a market's order counter by at most the number of orders it brings, which is at most eight; after n transactions, whatever they were, no counter exceeds 8n. Hence, as long as there have been fewer than about 2^61 transactions, a limit on the total supply of the market's two tokens (against the places of the event queue) is enough for every property of balances, books and events proved of guarded histories.", "quantifier": "every history, every instruction, account list and state between", "why_tests_cant": "a test cannot count to 2^64; it takes an invariant of all histories, whatever other programs do between transactions", "anchors": ["dex/src/state.rs:RequestQueueHeader::next_seq_num", "dex/src/state.rs:gen_order_id", "dex/src/state.rs:State::process", "dex/src/instruction.rs:MarketInstruction::unpack"]}
{"id": "C88", "title": "An event queue keeps the places it was opened with, so the program cannot leave the limits on supply and size", "statement": "No instruction in any state changes the number of places of an event queue; a new market's queue has exactly as many as its account has room for. Hence, once the supply of every token and the size of the program's accounts are within limits (supply times places, and once more, below 2^64), every transaction, of one or of many instructions, stays within them, and every property proved of guarded histories holds as long as nobody mints beyond the limit.", "quantifier": "every state, instruction, account list and transaction; every history of fewer than about 2^61 transactions", "why_tests_cant": "it takes an invariant of every path through matching, cancelling, pruning and consuming, also in states that no test sets up", "anchors": ["dex/src/state.rs:Queue::push_back", "dex/src/state.rs:Queue::pop_front", "dex/src/state.rs:State::process", "dex/src/state.rs:State::process_initialize_market", "dex/src/matching.rs:OrderBookState::new_order"]}
{"id": "C89", "title": "Opening a pool makes one new pool as asked and checks who takes its fees", "statement": "A successful Initialize request makes a pool in the first account, which held none before, and writes no other account. The pool has the name, fee rate, nonce and number of assets of the request, every vault is a token account of its asset's mint, and the liquidity provider fee account named in the state belongs to the fixed fee owner, has no delegate and no closing authority other than the pool's signer.", "quantifier": "every reachable state of the pool program (default or admin-controlled), every account list and every Initialize request", "why_tests_cant": "a test tries a few wrong fee accounts; the claim is over all accounts and account lists, with any of them repeated", "anchors": ["pool/src/lib.rs:PoolProcessor::initialize_pool", "pool/src/lib.rs:PoolProcessor::check_lqd_fee_account", "pool/src/context.rs:PoolContext::new"]}
