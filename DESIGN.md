# A formal model of serum-dex in Rocq

`rocq/theories` holds a function-by-function transcription of the on-chain code of this repository into total computable
functions (Coq 8.16.1, standard library only), specifications written apart from it, and proofs.  89 properties are
stated in `properties.jsonl`; 318 theorems in the files `Properties_*.v` answer them; `MANIFEST.json` says which theorem
answers which property.  `seeded/LOG.jsonl` records the wrong programs the theorems were tried against.

Build: `cd rocq && coq_makefile -f _CoqProject -o Makefile && make -j4`.

## 1. Conventions of the model

* Integers are `Z`.  The release profile of `dex/Cargo.toml` does not enable overflow checks, so every plain `+ - *` on
  `u64`/`u16` is written with an explicit wrap (`w64 (a + b)`).  `checked_*().unwrap()`, `assert!`, `unwrap()`, division
  by zero, out-of-range indexing and `unreachable!` become the explicit result `Panic`; errors become `Err code`.  In the
  pool crates, too, plain arithmetic wraps.
* `res A := Ok a | Err e | Panic`.  An error or a panic aborts the transaction; `transact` keeps the old state then.
* Loops are structural recursion or recursion on fuel; running out of fuel is `Panic`, and theorems show that it is not
  reached from well-formed states.
* Public keys (`[u64;4]`) are `Z`, encoded so that the lexicographic order of the words is the order of `Z`.  The system
  program's id is 0, the token program's is `spl_id`.
* Every definition of a model file cites the file and lines it transcribes.  Model files hold no proofs.  Property files
  hold theorems closed by `exact` of a lemma, `Print Assumptions` under each, and `Example`s meeting the hypotheses on
  concrete non-trivial states (checked by `vm_compute`).
* A claim that turned out false is a theorem ending in `_refuted` (or named for the counterexample); see section 6.

## 2. What is modelled

| code | model | remarks |
|---|---|---|
| `dex/src/fees.rs` | `Fees.v` | all of it; `fixed` arithmetic as 64.64 integers |
| `dex/src/critbit.rs` | `Critbit.v` | `Slab`: node array, header, free list, every loop |
| `dex/src/matching.rs` | `Matching.v` | `new_order`, `new_bid`, `new_ask`, posting, eviction, cancelling |
| `dex/src/state.rs` | `Market.v`, `Queue.v`, `Codec.v`, `Core.v`, `Store.v`, `Process.v`, `Layout.v` | accounts, queues, events; bodies of all live instructions; account parsing; the bytes of every account kind |
| `dex/src/lib.rs` `process_instruction` | `Process.v`, `Bundle.v` | one call per instruction; a transaction keeps all or nothing |
| `dex/src/instruction.rs` | `Instr.v`, `Client.v` | every instruction, byte level pack and unpack; the fifteen client-side builders |
| SPL token `Transfer`, `Approve`, `Revoke` | `Store.v`, `Proxy.v` | external; single-signature owners, delegates, frozen accounts |
| `dex/permissioned/src` | `Proxy.v` | `MarketProxy::run`, `OpenOrdersPda`, `Logger`, `ReferralFees`; the runtime's rule for signers of inner calls |
| `dex/tests/permissioned/programs/permissioned-markets/src/lib.rs` | `Permissioned.v` | the example program: `entry`, `Identity`; Anchor's IDL dispatch in front of it is left out |
| `pool/src`, `pool/schema/src` | `PoolStore.v`, `Pool.v`, `Borsh.v` | every request of the library, state codec, basket and fee arithmetic |
| `pool/examples/admin-controlled` | `AdminPool.v` | every admin request |
| `dex/crank/src/lib.rs` | `Crank.v` | reading accounts, `consume_events_loop` (one turn), `consume_events_instruction`, listing, new accounts, order and settle instructions; the network, key files and the thread pool are left out |
| system program `create_account` | `Crank.v` | external; as far as listing needs it |
| `assert-owner/src` | `AssertOwner.v` | all of it |

Not modelled: `dex/fuzz` (a test harness), `common`, log messages, the exact error code of a malformed account, compute budget,
`is_writable` flags (the runtime rejects a write to a read-only account: one more way to fail), `RefCell` aliasing (passing
one account twice where the code borrows it twice fails at run time; the model may let it pass, which can only enlarge the
set of successful runs; the theorems that say a call is accepted name distinct accounts, and the one case where two different
roles may meet, a depositor who is one of the market's own accounts, is in the model: `transfer_in`), rent collection, wrapped-SOL lamports inside token accounts, multisig owners of token accounts.
User-written middlewares of the proxy and Anchor's generated code are approximated: `create_oo` performs the checks
Anchor 0.2x derives from `InitAccount`.  The UTF-8 check of pool names and the `retbuf` program are oracles.

Simplification of `Store.v`: a dex-owned account is one of market, book, event queue, request queue, open orders, or blank;
`LayoutView.v` proves that reading the padded bytes of an account gives exactly this view and that writing it back is lossless
(C43).

## 3. Files

| file | kind | content |
|---|---|---|
| `Base.v` | model | Shared vocabulary of the model: results, wrapping arithmetic, indexing |
| `BaseProofs.v` | proof | Lemmas about the shared vocabulary |
| `Fees.v` | model | Model of dex/src/fees.rs |
| `FeesSpec.v` | specification | Independent specification of the fee schedule (used by the property theorems only) |
| `FeesProofs.v` | proof | Lemmas about fee arithmetic |
| `Properties_Fees.v` | theorems | Property theorems C01-C04: fees |
| `Critbit.v` | model | Model of dex/src/critbit.rs: the order book slab (crit-bit tree in a node array) |
| `CritbitBits.v` | proof | Bit-level facts behind the crit-bit tree |
| `CritbitProofs.v` | proof | The slab of Critbit.v represents a crit-bit tree, which represents a sorted list |
| `CritbitSlab.v` | proof | The node array, header and free list of Critbit.v represent the trees of CritbitProofs.v |
| `CritbitOps.v` | proof | Removal, extremes, in-place update and enumeration on well-formed slabs |
| `CritbitSpec.v` | specification | Specification of the order book storage: an ordinary finite map, kept as an unordered list of orders with distinct ids |
| `CritbitRefine.v` | proof | The slab refines the finite map of CritbitSpec.v |
| `Properties_Critbit.v` | theorems | Properties of the order book storage (C05-C08) |
| `Queue.v` | model | Model of the ring buffer of dex/src/state.rs:749-868 (event queue and request queue) |
| `QueueSpec.v` | specification | Specification of the queues: a plain list of bounded length |
| `QueueProofs.v` | proof | The ring buffer refines a list |
| `Codec.v` | model | Model of the event and request records of dex/src/state.rs:923-1313. Flag bytes are explicit; the packed byte layout of the other fields is not modelled |
| `CodecProofs.v` | proof | Round trips of the stored records and the exact set of accepted flag bytes |
| `Properties_Queue.v` | theorems | Properties of queues, stored records and order ids (C09, C10, C12) |
| `Market.v` | model | Model of the market account and the open-orders account of dex/src/state.rs |
| `Matching.v` | model | Model of dex/src/matching.rs: matching a new order against the book, posting, eviction, cancellation |
| `ListSum.v` | proof | Sums over lists, and how the order book list operations change them |
| `MatchSteps.v` | proof | One iteration of the matching loop, described over sorted lists of orders and unbounded integers |
| `MatchRefine.v` | proof | The model of matching.rs performs exactly the list-level steps of MatchSteps.v |
| `MatchAsk.v` | proof | new_ask performs the steps [ask_step] |
| `MatchBid.v` | proof | new_bid performs the steps [bid_step] |
| `MatchRun.v` | proof | Whole orders: the loop of new_order performs [ask_run] / [bid_run] |
| `Ledger.v` | specification | What the book and the event queue hold for each account: the vocabulary in which the accounting and slot properties are stated |
| `LedgerSteps.v` | proof | How one matching iteration moves the quantities of Ledger.v |
| `LedgerSums.v` | proof | Amounts over one matching iteration and over a whole order |
| `MatchSpec.v` | specification | What matching an order should do, stated over lists of orders and events only |
| `LedgerRun.v` | proof | Whole orders: the moves, the amounts and the rounds of [ask_run] and [bid_run] |
| `MatchReport.v` | proof | Every successful order gives a [report] |
| `MatchOrder.v` | proof | [new_order] on a well-formed book: it never panics, and its result is fully described |
| `MatchFacts.v` | proof | Consequences of [new_order_result], one per property |
| `MatchExample.v` | example | A concrete market with two resting asks, to show the hypotheses of the matching theorems met |
| `Properties_Matching.v` | theorems | Properties of matching one order (C13-C20) for every well-formed market state and every order |
| `Core.v` | model | The instruction bodies of dex/src/state.rs:2550-3610, on decoded accounts |
| `Slots.v` | proof | The slot bitmaps of an open-orders account |
| `CoreInv.v` | proof | The invariant of one market: its books, event queue, counters and live open-orders accounts |
| `CoreOrder.v` | proof | A whole order keeps the market invariant |
| `CoreNew.v` | proof | NewOrderV3 and SendTake keep the market invariant |
| `CoreCancel.v` | proof | Cancelling and pruning keep the market invariant, and cannot fail except on a full event queue |
| `CoreConsume.v` | proof | Consuming events: the event at the head of the queue can always be applied to its owner's account, and applying it keeps the market invariant |
| `CoreSettle.v` | proof | Settling, opening and closing accounts and sweeping fees keep the market invariant |
| `CoreFrame.v` | proof | Whatever the state, the instruction bodies change only counters of the market record and never the identity of an open-orders account |
| `Instr.v` | model | Model of dex/src/instruction.rs: the instruction type and its byte encoding |
| `InstrProofs.v` | proof | Proofs about the instruction encoding |
| `WireSpec.v` | specification | The bytes of an instruction, written down as a table of field widths and values, apart from the code that packs and reads them |
| `WireProofs.v` | proof | The instruction encoding against its table (C11) |
| `Properties_Instr.v` | theorems | Properties of the instruction encoding (C11) |
| `Store.v` | model | The accounts of the chain as the program sees them: a key-indexed store, the token program's transfer, and the checked loaders of dex/src/state.rs |
| `Process.v` | model | Account parsing and processing of every instruction, dex/src/state.rs:1442-3610, on the store |
| `StoreProofs.v` | proof | Facts about the store and the token program's transfer |
| `World.v` | specification | Histories: what can happen on the chain around the program |
| `WorldInv.v` | proof | The invariant of all histories, and when one instruction on one market keeps it |
| `WorldLoad.v` | proof | What the loaders find in a world that satisfies the invariant, and what writing back changes |
| `WorldRun.v` | proof | What a successful instruction has checked, loaded and written |
| `WorldStep.v` | proof | Every instruction keeps the invariant of the world: orders, cancels, prunes |
| `WorldStep2.v` | proof | Every instruction keeps the invariant of the world: settling, opening, closing, administration |
| `WorldConsume.v` | proof | Event consumption keeps the invariant of the world; what it does to the accounts |
| `WorldInit.v` | proof | InitializeMarket keeps the invariant of the world |
| `WorldMain.v` | proof | Every instruction keeps the world invariant, so every reachable state has it |
| `WorldSpec.v` | specification | What an onlooker reads off the chain about one market: the vocabulary of the world properties |
| `WorldFacts.v` | proof | What every reachable state looks like |
| `WorldFwd.v` | proof | When the loaders succeed |
| `WorldCancel.v` | proof | What a successful cancel or prune does to the market, read off the chain |
| `WorldCrank.v` | proof | Event consumption: what it does to a market, that it cannot fail, and that it can be split |
| `WorldPay.v` | proof | Token movements, and what a settle does |
| `WorldTrade.v` | proof | What SendTake and NewOrderV3 do to a market in any reachable state |
| `WorldAuth.v` | proof | Who must have signed for what, instruction by instruction |
| `WorldRights.v` | proof | Rights: signatures, authorities, disabling, closing and replacing, for every state of every history |
| `WorldExample.v` | example | A concrete history: two users trade on an open market; a second market is permissioned |
| `Properties_World.v` | theorems | Properties of every state of every history (C13, C21, C22, C23, C25) |
| `Properties_Cancel.v` | theorems | Cancelling and pruning in every state of every history (C28, C29, C36, C45) |
| `Properties_Consume.v` | theorems | Event consumption in every state of every history (C26, C27) |
| `Properties_Pay.v` | theorems | What leaves and enters the vaults when a trader settles, takes directly or places an order (C30, C31, C46), in every state of every history |
| `WorldRange.v` | proof | Every balance and counter of a reachable market is an exact 64-bit number |
| `ExampleWrap.v` | example | A history, outside the guard of World.v, in which an unchecked addition wraps: the coin lot is 2^62, so that three lots exist and a fourth would not fit into 64 bits |
| `Properties_Range.v` | theorems | C24: arithmetic never wraps within the guard of World.v, and can wrap outside it |
| `ExampleAuth.v` | example | Concrete histories for Properties_Auth.v: a disabled market, a closed account, a forfeited rebate, a replace |
| `Properties_Auth.v` | theorems | Who may do what (C32, C33, C34, C35, C37, C47, C48) |
| `Borsh.v` | model | The Borsh encoding (borsh 0.9.3, external) of the types the pool program uses |
| `PoolStore.v` | model | The accounts a pool program sees, and the instructions of the token program it invokes (external, spl-token processor.rs) |
| `Pool.v` | model | Model of the pool program library: pool/src/lib.rs, context.rs, pool.rs and pool/schema/src/schema.rs |
| `AdminPool.v` | model | Model of pool/examples/admin-controlled/src/lib.rs: a pool whose administrator may pause it, lend out and change its assets, and set its fee |
| `AssertOwner.v` | model | Model of assert-owner/src/lib.rs |
| `BorshProofs.v` | proof | The encodings are exact inverses of the decodings |
| `PoolFees.v` | proof | The pool's fees |
| `PoolFacts.v` | proof | What the token instructions of the pool program change, stated as balances |
| `PoolExec.v` | proof | The exact effect of creating and redeeming pool tokens |
| `PoolWorld.v` | specification | Histories of a pool program: transactions of anyone, and changes from outside the program |
| `PoolInv.v` | proof | What holds in every reachable state of a pool program |
| `PoolBack.v` | proof | Who can change a pool, and what a pool token is worth, over any history |
| `PoolMain.v` | proof | The facts about pools in the form the properties state them |
| `PoolQuote.v` | proof | Quotes, round trips, and the bytes of requests and states |
| `ExamplePool.v` | example | A small pool, run |
| `PoolWireSpec.v` | specification | The bytes of pool states and pool requests as tables of field widths and values, apart from the code that writes and reads them |
| `PoolWire.v` | proof | Pool states and requests against their tables (C49) |
| `Properties_Pool.v` | theorems | Pools: fees (C39), what pool tokens are worth (C40), administration (C41), the ownership assertion (C44), the encoding of states and requests (C49) and quotes (C50) |
| `Layout.v` | model | The bytes of the dex's accounts: padding, headers and the packed records of dex/src/state.rs and dex/src/critbit.rs, the loaders as they read bytes, and the view of an account's bytes as the data the other files work with |
| `LayoutSpec.v` | specification | What the padding, flags and sizes of accounts are meant to guarantee, on bytes |
| `LayoutProofs.v` | proof | Facts about the bytes of accounts |
| `LayoutView.v` | proof | The loaders that read bytes agree with the loaders of Store.v on the view of the bytes, and records survive being written |
| `Properties_Frame.v` | theorems | C43: the padding, flags and sizes of accounts |
| `Proxy.v` | model | The permissioned proxy: dex/permissioned/src/proxy.rs and the three middlewares of dex/permissioned/src/middleware.rs, with the runtime's rules for calls between programs |
| `ProxySpec.v` | specification | The vocabulary of the proxy properties (C42): what the surroundings of a proxy are assumed to be like and what an onlooker says about one call |
| `ProxyAmounts.v` | proof | Amounts of token accounts stay 64-bit numbers, and more signers do no harm |
| `ProxyProofs.v` | proof | What a call through the proxy does |
| `ProxyMain.v` | proof | The proxy's guarantees |
| `ProxyMore.v` | proof | Markets on which the proxy opens every account; and that the proxy does what it is asked |
| `ExampleProxy.v` | example | A concrete history through the proxy: market 30 is permissioned and opened by the proxy's address only |
| `Properties_Proxy.v` | theorems | The permissioned proxy (C42) |
| `WorldSizes.v` | proof | Sizes: no instruction changes the length of an account or of an event queue, and only closing moves lamports |
| `ExitSpec.v` | specification | What leaving a market means: the vocabulary of the exit property |
| `WorldExit.v` | proof | Leaving a market: crank the queue, cancel, settle and close, and where that ends |
| `Properties_Exit.v` | theorems | Nobody can be locked in (C54): from every state of every history the owner of an open-orders account can, with nobody else's signature except the crank authority's where the market has one, take their orders off the book, withdraw everything the account is worth and close it |
| `OpenSpec.v` | specification | Opening a market and the time limit of an order: the vocabulary of the properties |
| `WorldOpen.v` | proof | Opening a market: what InitializeMarket does and that it can be done; orders past their time limit are refused |
| `Properties_Open.v` | theorems | Opening a market does what was asked (C52), and no order is placed after its time limit (C51) |
| `MatchRoom.v` | proof | How much room in the event queue a new order needs: with that much room it is never refused for lack of it, and it is refused for self trading only when it meets its owner's own order |
| `PlaceSpec.v` | specification | What it takes for a new order to be accepted, stated over the books and the account only |
| `TakeSpec.v` | specification | What it takes for a SendTake to be accepted, stated over the market and the two wallets only |
| `CorePlace.v` | proof | A funded order with room in the event queue is accepted |
| `WorldPlace.v` | proof | When a new order is accepted |
| `CoreTake.v` | proof | A SendTake with room in the event queue is accepted, unless it gets less than it asks for |
| `WorldTake.v` | proof | When a SendTake, a fee sweep, the opening of an account and the disabling of a market are accepted |
| `Properties_Place.v` | theorems | C53: a funded order is accepted |
| `Properties_Take.v` | theorems | C31: a funded SendTake is refused only if it gets less than its minimum |
| `WorldCids.v` | proof | Cancelling by client order id always works when the event queue has room |
| `Client.v` | model | The client-side builders of instructions, dex/src/instruction.rs:666-1169. Their [Result] is always [Ok], so a builder is a total function here |
| `ClientSpec.v` | specification | What each client-side builder is for: the vocabulary of the client properties |
| `ClientProofs.v` | proof | The client-side builders: their bytes decode, they mark every account the program may change, and they work |
| `ClientWorks.v` | proof | Given the market's own accounts, what the client library builds goes through |
| `Properties_Client.v` | theorems | What the client library builds is what the program takes (C55) |
| `ExampleSupply.v` | example | A concrete history under the vault guard of C24 |
| `WorldSupply.v` | proof | When the vaults never hold much, the guard of World.v holds by itself (C24) |
| `WorldIsolate.v` | proof | Markets do not touch each other (C57) |
| `WorldRent.v` | proof | Rent: what is opened has paid it, and only closing moves lamports |
| `Properties_Rent.v` | theorems | What is opened has paid its rent, and lamports move only by closing (C56) |
| `Properties_Isolate.v` | theorems | C57: markets do not touch each other |
| `Crank.v` | model | The crank program dex/crank/src/lib.rs: reading the accounts of a market off the chain and building the transactions that consume its events, list it, trade on it and settle |
| `CrankSpec.v` | specification | What the crank program is for: the vocabulary of its properties |
| `CrankLists.v` | proof | The lists the crank program builds, and reading the queue off its bytes |
| `CrankProofs.v` | proof | Proofs about the crank program: what it reads, what it sends and what that does |
| `CrankWorks.v` | proof | What the crank program gets done: one instruction, one turn of its loop, many turns |
| `CrankList.v` | proof | Listing a market and opening an account with the crank program |
| `ExampleCrank.v` | example | A history for the crank program: one person places 33 orders that find no counterpart, each from an account of its own, the first one from the account with the largest address; the request queue has room for the bytes of one event |
| `Properties_Crank.v` | theorems | The crank program: what it reads, what it sends, what that does (C58), and listing a market with it (C59) |
| `Permissioned.v` | model | The example program for permissioned markets: dex/tests/permissioned/programs/permissioned-markets/src/lib.rs, a proxy with the middlewares Logger, Identity, ReferralFees and OpenOrdersPda |
| `PermSpec.v` | specification | The vocabulary of the example program's properties (C60) |
| `PermProofs.v` | proof | What a call of the example program does |
| `PermMain.v` | proof | Markets set up for the example program |
| `ExamplePerm.v` | example | A concrete history with the example program: it opens the accounts of market 30, prunes and consumes on it |
| `Properties_Perm.v` | theorems | C60: the example program for permissioned markets |
| `LifeSpec.v` | specification | The life of a resting order, as its owner can read it off the events of the market |
| `LifeProofs.v` | proof | What matching, cancelling and the other pieces of an instruction do to a resting order (C61) |
| `LifeSteps.v` | proof | Orders, takes and cancellations as steps in the life of a resting order (C61) |
| `LifeMain.v` | proof | Every instruction, and then every history, in the life of a resting order (C61) |
| `Properties_Life.v` | theorems | The life of a resting order (C61) |
| `ExamplePriority.v` | example | A market where an order waits behind another of the same price (C63) |
| `Properties_Priority.v` | theorems | Price and time priority over whole histories (C63) |
| `PoolUseSpec.v` | specification | When creating and redeeming pool tokens must go through |
| `PoolUse.v` | proof | Creating and redeeming pool tokens goes through |
| `Properties_PoolUse.v` | theorems | Using a pool (C62): creations and redemptions that must go through, the pool that nobody administers, and who can still stop it |
| `AbsentSpec.v` | specification | What others can do to a trader who signs nothing |
| `AbsentProofs.v` | proof | The absent trader (C64) |
| `ExampleAbsent.v` | example | A market where a trader is away (C64) |
| `Properties_Absent.v` | theorems | What others can do to a trader who signs nothing (C64) |
| `BestSpec.v` | specification | Best execution: what an incoming order could have traded instead |
| `BestProofs.v` | proof | Incoming orders trade all they can, at the best prices there are (C65) |
| `Properties_Best.v` | theorems | An incoming order trades all it can, at the best prices there are (C65), in every state of every history |
| `StatementSpec.v` | specification | The account of a trader as a bank statement |
| `StatementProofs.v` | proof | The statement of an account (C66) |
| `ExampleStatement.v` | example | The whole life of an account (C66) |
| `Properties_Statement.v` | theorems | The account of a trader as a bank statement (C66) |
| `MatchBlame.v` | proof | Why a new order is refused while it is matched: the event queue is too short, or it meets its owner's own order |
| `MatchTwin.v` | proof | The same order on a longer event queue: it does the same, and where the shorter queue is full it ends with more events than the shorter queue holds |
| `MatchFull.v` | proof | When a new order is refused because the event queue is full, the events it would report do not fit |
| `CoreBlame.v` | proof | Why a new order is refused, on one market: the whole instruction body |
| `ErrorSpec.v` | specification | What the errors mean, stated over the books, the accounts and the instruction only |
| `ErrorProofs.v` | proof | Errors have causes |
| `Properties_Errors.v` | theorems | C67: errors say what went wrong |
| `Errors.v` | model | Error codes, [dex/src/error.rs] |
| `ErrorsProofs.v` | proof | Facts about error codes |
| `Properties_Codes.v` | theorems | C68: error numbers |
| `TakeErrorSpec.v` | specification | What the errors of a SendTake mean, stated over the books, the wallets and the instruction only |
| `TakeBlame.v` | proof | A SendTake on one market: accepted, or the reason it is refused |
| `TakeErrorProofs.v` | proof | SendTake: with the right accounts it works or the stated reason is true; whatever the accounts, its errors are true |
| `Properties_TakeErrors.v` | theorems | C69: a SendTake works, or its error is true |
| `ReplaceErrorSpec.v` | specification | What the errors of a replace mean: those of its cancellation, or those of one of its orders in the state the earlier ones leave |
| `ReplaceProofs.v` | proof | A replace works or the stated reason is true |
| `Properties_Replace.v` | theorems | C70: a replace works, or its error is true |
| `IncomeSpec.v` | specification | The books of the exchange itself |
| `IncomeProofs.v` | proof | The books of the exchange (C71) |
| `ExampleIncome.v` | example | The books of a market over a few transactions (C71) |
| `Properties_Income.v` | theorems | The books of the exchange (C71) |
| `StrandSpec.v` | specification | Referral money that is nobody's |
| `StrandProofs.v` | proof | Referral money that is nobody's never gets out (C72) |
| `Properties_Strand.v` | theorems | Referral money that is nobody's (C72) |
| `MoreSpec.v` | specification | Comparing orders: what one order and another, each placed in the same state, would trade |
| `MoreProofs.v` | proof | Asking for more never gets less (C73) |
| `Properties_More.v` | theorems | Asking for more never gets less (C73) |
| `ExposureSpec.v` | specification | What a trader can gain and lose by the orders of an account |
| `ExposureProofs.v` | proof | What a trader can gain and lose by the orders of an account (C74) |
| `ExampleExposure.v` | example | What Bob and Alice can gain and lose (C74) |
| `Properties_Exposure.v` | theorems | A trader never gains or loses more than the orders of the account allow (C74) |
| `BacklogSpec.v` | specification | A market with a backlog of unprocessed events: the vocabulary of the property |
| `BacklogProofs.v` | proof | Processing the backlog and what is accepted afterwards |
| `Properties_Backlog.v` | theorems | C75: a backlog of events keeps nobody out |
| `CrankAnySpec.v` | specification | Processing of events by many: the vocabulary of the property |
| `CrankAnyProofs.v` | proof | Who processes the events, and in which portions, makes no difference |
| `Properties_ConsumeAny.v` | theorems | C27: who processes the events makes no difference |
| `ShareSpec.v` | specification | Who trades how much with an incoming order: price and time priority as a formula |
| `ShareProofs.v` | proof | Price and time priority as a formula (C76) |
| `Properties_Share.v` | theorems | Each resting order gets its share (C76): price and time priority as a formula, in every state of every history |
| `NoGainSpec.v` | specification | Trading against orders that stand while their owners are away |
| `NoGainProofs.v` | proof | Nobody gains by trading back and forth against standing orders (C77) |
| `ExampleNoGain.v` | example | Somebody trades back and forth against orders of an absent trader (C77) |
| `Properties_NoGain.v` | theorems | Trading back and forth against standing orders never pays (C77) |
| `DelaySpec.v` | specification | When a trader can have their money |
| `DelayProofs.v` | proof | Nobody can keep a trader waiting (C78) |
| `ExampleDelay.v` | example | A trader waits for the queue while others trade on (C78) |
| `Properties_Delay.v` | theorems | Nobody can keep a trader waiting (C78) |
| `UseProofs.v` | proof | The rights of the authorities and of newcomers can be used, and what a disabled market has earned cannot be collected (C79) |
| `Properties_Use.v` | theorems | C79. The rights of the authorities and of newcomers can always be used; but what a market has earned and not paid out when it is disabled can never be collected |
| `LocalSpec.v` | specification | Which accounts matter to an instruction |
| `LocalProofs.v` | proof | Only the named accounts matter to an instruction (C80) |
| `ForeignProofs.v` | proof | The program writes only to accounts it owns and, through the token program, to token accounts (C80) |
| `Properties_Local.v` | theorems | C80. An instruction reads and writes only the accounts it names, and of those only the program's own and token accounts; so transactions that do not get into each other's way can be run in either order |
| `UndoProofs.v` | proof | Taking back an order that met nothing undoes it (C81) |
| `Properties_Undo.v` | theorems | C81. Changing one's mind is free: an order that met nothing and pushed nothing off the book is undone by cancelling it |
| `AbortSpec.v` | specification | When the program may abort |
| `AbortProofs.v` | proof | What makes an instruction abort |
| `Properties_Abort.v` | theorems | C82. The program does not abort, except in four cases that can be seen beforehand |
| `SwapSpec.v` | specification | An immediate-or-cancel order and the settlement after it, taken together |
| `SwapProofs.v` | proof | An immediate-or-cancel order with its settlement, and a send-take, are the same swap (C83) |
| `Properties_Swap.v` | theorems | C83. An immediate-or-cancel order and the settlement after it are a swap, and the same swap as a send-take |
| `TotalSpec.v` | specification | How much there is of a token, and of lamports |
| `TotalProofs.v` | proof | No instruction creates or destroys tokens or lamports (C84) |
| `Properties_Total.v` | theorems | C84: the program neither makes nor destroys tokens or lamports |
| `Bundle.v` | proof | A transaction of several instructions |
| `ScarceSpec.v` | specification | A limit on the supply of tokens |
| `ScarceProofs.v` | proof | A limited supply implies the guards on the vaults (C24); transactions of several instructions (C85) |
| `Properties_Bundle.v` | theorems | C24 once more, and C85. [scarce e K s]: of neither token of a usable market [k] do all token accounts of [s] together hold more than [K k], and that, times the places of the event queue and once more, is below 2^64 (ScarceSpec.v) |
| `PoolTotalSpec.v` | specification | How much there is of a token in the accounts a pool program sees |
| `PoolTotal.v` | proof | Pools make and burn pool tokens as their mints record, and nothing else (C86) |
| `Properties_PoolTotal.v` | theorems | C86: a pool makes and burns pool tokens as their mint records, and no other token |
| `CountSpec.v` | specification | Counting transactions |
| `CountProofs.v` | proof | The order counter rises by one for an order (C87); a limit on supply alone |
| `Properties_Count.v` | theorems | C87. [counted e G n s]: a history of [n] transactions, successful or not, each starting from a state satisfying [G], leads to [s]. [capped e K s]: of neither token of a usable market [k] do all token accounts of [s] together hold more than [K k], and that, times the places of the event queue and once more, is below 2^64. [brought i]: how many orders instruction [i] can bring (CountSpec.v) |
| `RoomSpec.v` | specification | The places of an event queue, and a limit on supply that speaks of tokens and sizes only |
| `RoomProofs.v` | proof | The event queue keeps its places (C88) |
| `RoomStore.v` | proof | The event queue keeps its places (C88): through every instruction |
| `Properties_Room.v` | theorems | C88. [limited e S C s]: of no token do all accounts of [s] together hold more than [S], the program's event queues have at most [C] places and its accounts room for no more, and [S] times [C] and once more is below 2^64 (RoomSpec.v) |
| `PoolOpen.v` | proof | What opening a pool establishes (C89) |
| `Properties_PoolOpen.v` | theorems | C89. What opening a pool checks and what it leaves alone |

## 4. Hypotheses of the theorems

No theorem uses an axiom; what a theorem assumes is in its statement.  The recurring hypotheses:

* `env_ok e`: the address derived for a market's vault signer determines the market, and the dex's id is neither the token
  program's nor the system program's.
* `legal e ms`: no account of the list marked as signer is a derived address of the dex.  (Only a program can sign for its
  derived addresses; the dex never does so in a top-level instruction.)
* `genesis e s`: the dex's accounts are blank and token amounts are 64-bit.
* `rely e s s'`: what other programs and the runtime may do between transactions - anything except writing the dex's accounts
  or taking from token accounts owned by a derived address (those without delegate or close authority).
* `anytime e s`: a state of any history whatever of the above, with no further condition, not even on instruction bytes.
* `history e s`: a state of any history in which each transaction starts in a state satisfying `no_overflow` and `sized`
  (accounts shorter than 2^63 bytes).
* `no_overflow e s`: for each usable market, deposits plus what makers paid in fills not yet consumed stay below 2^64, and the order
  counter has room for 16 more.  This is the only condition under which balance theorems are claimed: C24 shows that outside it an
  unchecked addition does wrap.
  It need not be assumed of the program's counters: `C24_small_vaults_suffice` derives it from `modest e K`, which speaks of token
  accounts only - no vault of market k ever holds more than `K k`, with `K k * (1 + size of the event queue) < 2^64`.
  `C24_limited_supply_suffices` derives that in turn from `scarce e K`: all accounts together hold no more than `K k` of either
  token.  The program never changes that total (C84), so this is a condition on those who mint.
  C87 leaves only a limit on the supply of the two tokens, for histories of fewer than 2^61 - 2 transactions (`counted`, `capped`).
* `usable m`: lot sizes are positive and the two books are different accounts (InitializeMarket checks neither).
* `penv_ok`, `standard`, `honest`, `prely` (pools): derived addresses differ, requests are bytes and signers are no derived
  addresses, other programs cannot write the pool's account or take from its vaults.
* `px_ok`, `sealed`, `guarded` (proxy): derived addresses do not collide, nobody but the proxy signs for them, and the
  middleware list holds exactly one `OpenOrdersPda`.
* `prune_ok`, `outside` (example program): its prune addresses collide with no other, and nobody but the program signs for its
  addresses or for the rent sysvar, which serves as token.

## 5. Properties and theorems

| id | title | status | theorems |
|---|---|---|---|
| C01 | Taker fee is the exact rounded-up rate and never exceeds the trade | proved | `C01_taker_fee` |
| C02 | The exchange never pays more in rebates than it collects | proved | `C02_net_fee_nonnegative` |
| C03 | A spend limit that includes fees is never exceeded | proved | `C03_spend_limit`, `C03_market_order_fee`, `C03_add_then_remove` |
| C04 | Fee tier depends only on token balances and market and is monotone | proved | `C04_tier_table`, `C04_tier_monotone`, `C04_discount_account`, `C04_foreign_discount_rejected` |
| C05 | Order book storage behaves as a finite map | proved | `C05_book_is_finite_map` |
| C06 | Best price lookup is right in every book state | proved | `C06_extreme_lookup` |
| C07 | Book storage integrity: no leaks, no double use, deterministic capacity | proved | `C07_storage_integrity`, `C07_out_of_space_exact` |
| C08 | Search by owner finds exactly that owner's orders | proved | `C08_owner_search` |
| C09 | Queues are FIFO ring buffers | proved | `C09_fifo` |
| C10 | Stored events and requests decode to what was written | proved | `C10_event_roundtrip`, `C10_request_roundtrip`, `C10_event_decode_faithful`, `C10_request_decode_faithful`, `C10_event_written`, `C10_request_written`, `C10_only_written_flags_refuted` |
| C11 | Instruction encoding round-trips and malformed input is rejected | proved | `C11_roundtrip`, `C11_decode_exact`, `C11_header`, `C11_replace_limit`, `C11_wire_format`, `C11_wire_format_accepted`, `C11_wire_format_packed` |
| C12 | Order ids give price-time priority | proved | `C12_order_ids`, `C12_distinct_across_sides_refuted` |
| C13 | The book is never crossed | proved | `C13_order_keeps_uncrossed`, `C13_never_crossed` |
| C14 | Immediate-or-cancel orders never rest | proved | `C14_ioc_never_rests` |
| C15 | Post-only orders never take | proved | `C15_post_only_never_takes` |
| C16 | Trades happen at the resting price and within the taker's limit | proved | `C16_trades_at_resting_price` |
| C17 | A taker never spends more than authorised | proved | `C17_taker_spend_exact` |
| C18 | Self-trade options do what they say | proved | `C18_self_trade`, `C18_abort_refuses` |
| C19 | Match limit bounds work and never loses funds | proved | `C19_match_limit`, `C19_never_panics` |
| C20 | Full book evicts the least aggressive order and compensates its owner | proved | `C20_eviction` |
| C21 | Coin conservation: every account's claim is backed | proved | `C21_every_market_is_seen`, `C21_coin_conserved` |
| C22 | Quote currency conservation including fees and rebates | proved | `C22_pc_conserved` |
| C23 | Locked funds equal resting orders plus pending releases | proved | `C23_locked_is_resting_plus_pending` |
| C24 | Amounts never wrap as long as deposits plus unconsumed fills fit into 64 bits | proved | `C24_counters_in_range`, `C24_deposits_cover_the_books`, `C24_small_vaults_suffice`, `C24_wraps_without_the_guard_refuted`, `C24_limited_supply_suffices` |
| C25 | Order slots and book agree | proved | `C25_slots_and_book_agree` |
| C26 | Event consumption cannot get stuck | proved | `C26_never_fails`, `C26_head_can_be_consumed`, `C26_queue_can_be_drained` |
| C27 | Event consumption is exactly-once and in order | proved | `C27_exactly_the_served_prefix`, `C27_splitting`, `C27_who_processes_makes_no_difference` |
| C28 | Cancel refunds the owner in full and nobody else | proved | `C28_cancel_returns_what_was_locked`, `C28_nobody_cancels_for_others` |
| C29 | A resting order can always be cancelled by its owner | proved | `C29_owner_can_always_cancel`, `C29_owner_can_always_cancel_by_client_ids`, `C29_owner_can_always_cancel_by_client_id`, `C29_cancel_by_a_reused_client_id_refuted` |
| C30 | Settling pays exactly the free balances and always can | proved | `C30_settle_pays_exactly_the_free_amounts`, `C30_settle_is_always_possible` |
| C31 | Send-take is all-or-error and leaves nothing behind | proved | `C31_send_take`, `C31_only_the_minimum_refuses` |
| C32 | Only the owner's signature moves an account's orders and funds | proved | `C32_owner_signature`, `C32_owner_must_sign`, `C32_one_account`, `C32_prune_and_crank_move_no_tokens` |
| C33 | Administrative actions need their authority | proved | `C33_disable`, `C33_sweep`, `C33_fees_leave_only_by_sweeping`, `C33_prune`, `C33_consume`, `C33_opening` |
| C34 | Disabling a market stops trading but not withdrawal | proved | `C34_disabled_means_no_trading`, `C34_disabled_forever`, `C34_close_possible` |
| C35 | An account can be closed only when nothing is owed to it | proved | `C35_close_only_when_empty`, `C35_nothing_refers_to_it`, `C35_closed_is_dead`, `C35_rebates_can_be_lost` |
| C36 | Cancel by client id cancels exactly the matching resting orders | proved | `C36_cancel_by_client_ids`, `C36_cancel_by_client_id` |
| C37 | Replace is cancel followed by new order, atomically | proved | `C37_replace_many`, `C37_replace_one` |
| C38 | Failed instructions change nothing | not_applicable | - |
| C39 | Pool fees are bounded, rounded up and fully split | proved | `C39_fee_schedule`, `C39_shares`, `C39_charged` |
| C40 | Creating and redeeming pool tokens never dilutes holders | proved | `C40_creation`, `C40_redemption`, `C40_backing_never_falls`, `C40_no_free_assets`, `C40_round_trip`, `C40_duplicate_vaults_refuted`, `C40_vault_owner_refuted` |
| C41 | Admin-controlled pool: only the admin changes configuration and pause blocks users | proved | `C41_only_admin`, `C41_user_history`, `C41_paused_blocks`, `C41_requests`, `C41_unpausing`, `C41_always`, `C41_delegates_refuted` |
| C42 | Through the permissioned proxy only the user moves the user's account and money | proved | `C42_accounts_belong_to_users`, `C42_not_around_the_proxy`, `C42_only_the_user`, `C42_owner_agrees`, `C42_tokens`, `C42_order`, `C42_order_accepted`, `C42_open`, `C42_forwarded`, `C42_accepted`, `C42_referral`, `C42_prune`, `C42_consume`, `C42_nothing_else`, `C42_histories`, `C42_histories_guarded`, `C42_users_can_use_what_they_open_refuted` |
| C43 | Account framing is strict | proved | `C43_exactly`, `C43_orders_exactly`, `C43_one_kind`, `C43_fresh_is_unused`, `C43_orders_padding`, `C43_orders_padding_refuted`, `C43_fresh_refuted`, `C43_market_loader`, `C43_book_loader`, `C43_request_queue_loader`, `C43_event_queue_loader`, `C43_orders_loader`, `C43_market_bytes`, `C43_permissioned_market_bytes`, `C43_orders_bytes`, `C43_event_queue_bytes`, `C43_request_queue_bytes`, `C43_book_bytes`, `C43_blank_request_queue`, `C43_blank_event_queue`, `C43_blank_book`, `C43_market_offsets`, `C43_orders_offsets` |
| C44 | Ownership assertion instruction | proved | `C44_assert_owner` |
| C45 | Pruning removes only the named account's orders and refunds them | proved | `C45_prune`, `C45_prune_is_possible`, `C45_prune_uses_its_limit_refuted` |
| C46 | Placing an order charges exactly what it trades, fees and rests | proved | `C46_new_order_charges_exactly` |
| C47 | No instruction takes tokens from anybody without a signature | proved | `C47_tokens_move_only_when_signed` |
| C48 | A market's configuration and an account's owner never change | proved | `C48_market_configuration_is_forever`, `C48_account_owner_is_forever` |
| C49 | Pool states and requests have exactly one encoding | proved | `C49_state_codec`, `C49_request_codec`, `C49_admin_codec`, `C49_state_format`, `C49_request_format`, `C49_admin_format`, `C49_paused_format` |
| C50 | Quotes report each vault's portion and change nothing else | proved | `C50_quote`, `C50_redemption_quote_refuted` |
| C51 | No order is placed after its time limit | proved | `C51_expired_orders_are_refused`, `C51_expired_orders_change_nothing`, `C51_time_decides_nothing_else` |
| C52 | A new market is exactly what was asked for | proved | `C52_a_new_market_is_as_asked`, `C52_anyone_can_open_a_market`, `C52_opened_markets_are_usable_refuted` |
| C53 | A funded order is accepted | proved | `C53_a_funded_order_is_accepted` |
| C54 | Everyone can leave with everything | proved | `C54_everyone_can_leave_with_everything` |
| C55 | What the client library builds is what the program takes | proved | `C55_decoded`, `C55_writable_suffices`, `C55_cancel_works`, `C55_cancel_by_client_ids_works`, `C55_cancel_by_client_id_works`, `C55_settle_works`, `C55_close_works`, `C55_prune_works`, `C55_consume_works`, `C55_permissioned_consume_works`, `C55_new_order_works`, `C55_send_take_works`, `C55_sweep_works`, `C55_disable_works`, `C55_init_open_orders_works`, `C55_match_orders_is_empty`, `C55_initialize_works`, `C55_consume_in_any_order_refuted`, `C55_authority_is_kept_refuted` |
| C56 | New accounts have paid their rent, and lamports move only by closing | proved | `C56_accounts_pay_when_opened`, `C56_markets_pay_when_opened`, `C56_lamports_move_only_by_closing`, `C56_market_account_pays_refuted` |
| C57 | Markets do not touch each other | proved | `C57_one_market_at_a_time`, `C57_no_other_vault_loses`, `C57_other_vaults_unchanged_refuted` |
| C58 | The crank program empties the queue, and out-of-date data does no harm | proved | `C58_keys_read`, `C58_length_read`, `C58_once`, `C58_once_always_progresses_refuted`, `C58_turn`, `C58_stale_harmless`, `C58_once_stale_harmless`, `C58_authority_refuses`, `C58_turns_drain`, `C58_serves_every_market_refuted` |
| C59 | Listing a market with the crank program works | proved | `C59_listing`, `C59_new_account`, `C59_trades_like_the_client` |
| C60 | The example program admits only holders of the token, and nobody goes around it | proved | `C60_not_around_the_program`, `C60_only_with_the_token`, `C60_accounts_belong_to_users`, `C60_users`, `C60_users_served`, `C60_accepted`, `C60_referral`, `C60_prune`, `C60_consume`, `C60_crank`, `C60_nothing_else`, `C60_anyone_prunes`, `C60_anyone_consumes`, `C60_histories`, `C60_histories_guarded`, `C60_only_the_revoked_are_pruned_refuted` |
| C61 | The life of a resting order | proved | `C61_the_life_of_an_order`, `C61_the_balance_of_an_order`, `C61_the_causes`, `C61_every_history_counts` |
| C62 | A pool can be used, and the simple pool has no ruler | proved | `C62_creation_goes_through`, `C62_redemption_goes_through`, `C62_no_ruler`, `C62_fee_account_missing`, `C62_holders_can_leave_refuted` |
| C63 | Orders are served by price and then by time, over whole histories | proved | `C63_price_time_priority`, `C63_later_ranks_behind`, `C63_rank_read` |
| C64 | Nobody else can make a trader who signs nothing worse off | proved | `C64_the_absent_trader`, `C64_the_events` |
| C65 | An order trades all it can, at the best prices there are | proved | `C65_best_execution_of_orders`, `C65_best_execution_of_takes`, `C65_orders_trade_all_they_can`, `C65_takes_trade_all_they_can`, `C65_no_other_trades` |
| C66 | A trader's account is a balanced statement | proved | `C66_the_statement_balances`, `C66_the_life_of_an_account`, `C66_there_is_a_statement` |
| C67 | Errors are true: a refused order or cancel says why | proved | `C67_an_order_is_accepted_or_the_reason_is_true`, `C67_a_refused_order_says_why`, `C67_a_cancel_works_or_the_reason_is_true`, `C67_a_refused_cancel_says_why`, `C67_a_prune_works_or_the_queue_is_full`, `C67_an_account_closes_or_is_in_use` |
| C68 | Error numbers identify errors | proved | `C68_every_error_has_its_published_number`, `C68_no_two_errors_share_a_number`, `C68_numbers_read_back`, `C68_failed_checks_name_their_line`, `C68_files_differ`, `C68_modelled_errors_differ` |
| C69 | Errors of SendTake are true | proved | `C69_a_take_works_or_the_reason_is_true`, `C69_a_refused_take_says_why` |
| C70 | Errors of a replace are true | proved | `C70_a_replace_works_or_the_reason_is_true`, `C70_a_refused_replace_says_why` |
| C71 | The exchange's own books balance | proved | `C71_the_books_balance`, `C71_paid_from_income`, `C71_never_at_a_loss`, `C71_the_books_go_on` |
| C72 | Referral money that is nobody's stays locked in the vault for ever | proved | `C72_what_strands`, `C72_it_stays`, `C72_for_ever` |
| C73 | Asking for more never gets less, and only the other side of the book matters | proved | `C73_more_gets_no_less`, `C73_same_terms_same_trades`, `C73_same_sender`, `C73_before_or_after_a_crank` |
| C74 | A trader never gains or loses more than the orders of the account allow | proved | `C74_trades_stay_within_the_orders`, `C74_gains_and_losses_stay_within_the_orders`, `C74_there_is_a_record` |
| C75 | A backlog of unprocessed events keeps nobody out | proved | `C75_a_backlog_keeps_nobody_out` |
| C76 | Each resting order gets its share, and splitting an order changes nothing | proved | `C76_each_gets_its_share`, `C76_in_full`, `C76_in_parts` |
| C77 | Trading back and forth against standing orders never pays | proved | `C77_no_gain_at_a_fair_price`, `C77_nothing_for_nothing` |
| C78 | Nobody can keep a trader waiting | proved | `C78_in_turn`, `C78_free_in_turn`, `C78_all_out` |
| C79 | Sweeping, disabling and opening accounts always work; a disabled market's fees are stuck | proved | `C79_sweeping_possible`, `C79_disabling_possible`, `C79_opening_possible`, `C79_disabled_fees_are_stuck` |
| C80 | Only the named accounts matter, other programs' accounts are untouched, and independent transactions commute | proved | `C80_only_the_named_accounts_matter`, `C80_only_the_named_accounts_change`, `C80_other_programs_accounts_are_untouched`, `C80_independent_transactions_commute`, `C80_disjoint_transactions_commute`, `C80_any_transactions_commute_refuted` |
| C81 | Changing one's mind is free: cancelling an order that met nothing undoes it | proved | `C81_taking_an_order_back_undoes_it` |
| C82 | No transaction makes the program abort, save in four cases that can be seen beforehand | proved | `C82_only_these_abort`, `C82_removed_aborts`, `C82_short_replace_aborts` |
| C83 | An immediate-or-cancel order followed by a settlement is an exact swap, and the same one as a send-take | proved | `C83_order_and_settlement`, `C83_same_as_a_take` |
| C84 | No transaction makes or destroys tokens or lamports | proved | `C84_tokens_neither_made_nor_lost`, `C84_lamports_neither_made_nor_lost` |
| C85 | A transaction of several instructions is all of them in turn, or nothing | proved | `C85_all_or_nothing`, `C85_is_a_history`, `C85_is_a_guarded_history`, `C85_tokens_neither_made_nor_lost` |
| C86 | A pool makes and burns pool tokens exactly as their mint records, and no other token | proved | `C86_pool_tokens_as_recorded` |
| C87 | The order counter moves by one for an order, so that a limit on supply is the only guard left | proved | `C87_counter_step`, `C87_counter_bound`, `C87_limited_supply_alone` |
| C88 | An event queue keeps the places it was opened with, so the program cannot leave the limits on supply and size | proved | `C88_places_kept`, `C88_limit_lasts`, `C88_limit_lasts_in_a_transaction`, `C88_limit_suffices` |
| C89 | Opening a pool makes one new pool as asked and checks who takes its fees | proved | `C89_new_pool` |

How they are proved:

* C01-C04: linear integer arithmetic with division facts; case split on tiers.
* C05-C08: a representation relation between node array and an inductive crit-bit tree, which refines a sorted list;
  every operation sequence refines a finite map.
* C09: the ring buffer refines a list.  C10, C11, C49: little-endian codec lemmas, case analysis.  C12: `Z` arithmetic.
* C13-C20: `MatchRefine`, `MatchAsk`, `MatchBid`, `MatchRun` show that `new_order` performs list-level steps; `MatchReport`
  describes the whole result; induction on the match limit.
* C21-C37, C45-C48: `CoreInv`/`CoreNew`/`CoreCancel`/`CoreConsume`/`CoreSettle` keep the invariant of one market; `World*` lift it to
  the store, to every instruction and to every history; effects are then read off the chain by `seen`.
* C39-C41, C50: `PoolExec` gives the exact effect of creating and redeeming; `PoolInv` and `PoolBack` are inductions over
  histories of a pool.
* C62: forward simulation of the context and of every token instruction; the simple pool's states have no administrator, so
  every history is one of C40's.
* C42: one call is decomposed (`went`) into token calls and one dex instruction; the facts about dex instructions do the
  rest; C42 over histories is an induction over `lived`.
* C66: one lemma per instruction (StatementProofs.v): those acting for the account (`by_order`, `by_settle`, `by_cancel`, `by_replace`,
  `by_close`, `by_init`) and all others (`by_others`); the statement is then an induction over the stretch.
* C67: MatchBlame.v follows the matching loop and shows which of its errors can happen and that it never aborts; CoreBlame.v does the
  same for the instruction body (`new_order_judged`), WorldPlace.v for the whole instruction (`order_judged`; C53 follows from it).
  For arbitrary accounts ErrorProofs.v lists the errors of every loader and passes the others on. MatchTwin.v runs the same order on a short and a long event queue; MatchFull.v concludes that an order refused for want of room would have reported more events than fit.  That part assumes a queue of fewer than 2^62 places.
* C69: the same for SendTake (TakeBlame.v for the body, TakeErrorProofs.v for the transfers and the loaders). The trades it would
  have made are those of `report` (MatchSpec.v), the relation C65 proves the orders follow.
* C70: ReplaceProofs.v repeats `order_judged` and `order_refused` along the orders of the replace; `order_amounts` shows that the bounds
  on the amounts survive each order.
* C71: IncomeProofs.v, one lemma per kind of instruction (`tally_order`, `tally_take`, `tally_settle`, `tally_sweep`, ...), each from the effect
  theorems and the sums over the events of an order (`rounds_all`).
* C72: StrandProofs.v: the sums over accounts (`total_one`, `spread`) and one lemma per kind of instruction (`strand_order`, `strand_consume`, ...).
* C73: MoreProofs.v: `more`, an induction over the meetings of the less generous order. The invariant (`ahead`) says that both books are equal, or that the more generous order has already taken `n` lots more of the best order.
* C74: ExposureProofs.v: three potential functions (coin of resting bids, coin of resting asks, cost of resting bids); every matching round moves as much from the potential to the reported trades (`met_weight`), an incoming order adds at most what it asks for (`orders_holds`), and everything else only lowers it. With the statement of C66 this bounds gains and losses.
* C75: BacklogProofs.v: the draining lemma behind C54 (`all_events_by`, WorldExit.v), then C53, C31 and C29 in the drained state; a slot is free there by counting (`slot_after`: every used slot of an empty queue holds a resting order).
* C27 (any series): CrankAnyProofs.v: a consume is some number of steps of one function `drain` that does not look at the supplied accounts; the steps commute with writing the queue back, so a series is one `drain` too.
* C76: ShareProofs.v: `steps` forgets everything about the rounds but which order was met and how much it lost; `steps_share` is an induction on them (taking t lots from the best order takes t from what is ahead of all others), `weigh_share` sums by order, `eager_full` is an induction on `eager`. Splitting: `steps_app`.
* C77: NoGainProofs.v: each event of an absent trader's account belongs to the story (LifeProofs.v) of an order that stood, so it trades at that order's price (`worth_story`) and is worth nothing or more to it at a fair price; the books (C71) make the sum over all traders minus the income; the uncrossed book has a fair price (`fair_price`).
* C78: DelayProofs.v: over an absence, free amounts plus what the events from before still free never fall (`free_step`, `free_story`: the queue is the rest of the old events followed by new ones); C23 evaluates it at the start, C25 gives the free slots.
* C79: UseProofs.v: the loaders succeed (WorldFwd.v) and the vault covers the fees (`vault_cover`); fees never shrink but by sweeping (C33), which a disabled market refuses.
* C80: LocalProofs.v runs each instruction on two states that agree on the named accounts, loader by loader (`process_local`); ForeignProofs.v shows that every account written is the program's own or a token account (`process_tame`), which for the books and queues follows from the links between market and accounts (`wstruct`), as the loaders do not check the owner.
* C81: UndoProofs.v joins C46 and C28: a round would have changed an order (`rounds_none`), an eviction would have removed one, and deleting what was inserted gives the old book (`del_ins`).
* C82: AbortProofs.v goes through every instruction with `rbind_panic`; the loaders never panic, the matching cannot by the judgements behind C67, C69 and C75, the crank by `loop_total`, and a replace keeps `small`, a bound that leaves room for the orders still to come.
* C83: SwapProofs.v composes `order_effect` with `settle_effect`; the trades of the take are trades of the order because neither meets an own order (`eager_other`), and there is only one way to trade all that can be traded (`only_trades`).
* C84: TotalProofs.v goes through the instructions once more: each is a chain of moves between two token accounts of one mint, or leaves all token accounts alone; only closing an account moves lamports.
* C85: ScarceProofs.v, by induction on the instructions; `C24_limited_supply_suffices` is there too: a vault holds no more than there is.
* C86: PoolTotal.v: every step of a request is a list of moves between accounts of one mint together with what the mint records (`even_tx`).
* C87: CountProofs.v: every write to an account is followed through every handler (`process_up`), without any invariant; the bound on the counter is an induction on histories, and gives the last part of `scarce`.
* C88: RoomProofs.v follows the queue through matching and cancelling (`cap`), RoomStore.v through every handler (`process_fit`); with C84 and C87 the limits are an invariant of the program.
* C89: PoolOpen.v (`new_pool`) follows initialize_pool and keeps what check_lqd_fee_account established.
* C68: Errors.v numbers the variants by Rust's rule from the declaration; `published` (Properties_Codes.v) is written out.
* C65: `report` and `takes` carry `eager` (MatchSpec.v), which says of each round that it takes the most it can and of the last why it is the
  last; MatchReport.v proves it from the steps.  For best execution BestProofs.v shows that an order ahead of one traded with is used
  up, so against the worst price traded every other choice of lots loses term by term.
* C64: an instruction not signed by the owner leaves the account alone, processes its events, or prunes its orders (WorldAuth.v `act`).
  New events name the acting account or an order that rested (`heard`, `come` in LifeSteps.v), so those of an absent account are the
  stories (C61) of its own orders; AbsentProofs.v sums them.
* C63: in every round the best order of the side is met, so an order ranked ahead of it is not on the book; by C61 its story has ended,
  and the end is an earlier event.  `ranks` composes along `lives` (LifeSteps.v, LifeMain.v).
* C61: each instruction is a list of `orders`, `takes` and withdrawals; their stories compose because no id is handed out twice
  (the numbers of C46); then induction over the stretch.
* C60: every successful call is one of five kinds (`entry_kind`), each a call of the proxy or of the dex.
* C43: byte-level loaders against the bytes of accounts.  C44: direct.
* C51-C54: forward simulation: from the invariant, each step of the processor succeeds.  C57: the frame of every `deed`.  C55: `built` relates each builder to its call; the rest is C11
  and the forward theorems.  C58: the bytes of the queue are read back (C43), N equal instructions are one with N times the limit (C27),
  then the forward theorem of consuming; induction over turns.  C59: `create_account` is an instance of `rely`.

## 6. Findings

Refuted or surprising, each with a theorem or example:

* The limit of a prune counts visited nodes, so small limits may remove nothing (`C45_prune_uses_its_limit_refuted`); the market account itself need
  not be rent exempt (`C56_market_account_pays_refuted`).
* Cancelling by one client id looks at the first slot with that id only; if that order has gone but is not yet consumed, a resting order
  with the same id cannot be cancelled this way (`C29_cancel_by_a_reused_client_id_refuted`).  The list version can.
* Client library: `consume_events` passes the accounts as given, but the program bisects them, so an unsorted list may succeed and consume
  nothing (`C55_consume_in_any_order_refuted`); `initialize_market` drops a crank authority given without a prune authority, leaving a market
  anyone may crank (`C55_authority_is_kept_refuted`).
* Crank program: the one-off command names the 32 smallest owners; if the first event belongs to a 33rd it changes nothing, for ever
  (`C58_once_always_progresses_refuted`).  The loop reads the request queue as if it held events and stops with an error on a market whose
  request queue is shorter than 132 bytes (`C58_serves_every_market_refuted`); it does not know the permissioned consume
  (`C58_authority_refuses`).
* SettleFunds pays into any token account the trader names, another market's vault included, where it belongs to nobody
  (`C57_other_vaults_unchanged_refuted`).
* Unchecked additions can wrap (`C24_wraps_without_the_guard_refuted`): with more than 2^64 base units counted in deposits plus
  unconsumed fills, an account's total wraps.
* Event flag bytes the program never writes are accepted and decode as `Out` (`C10_only_written_flags_refuted`).
* InitializeMarket accepts lot sizes of zero and one account for both books (`C52_opened_markets_are_usable_refuted`).
* After 2^63 orders a bid and an ask can get the same id (`C12_distinct_across_sides_refuted`).
* Closing an account ignores `referrer_rebates_accrued`: the referrer's share is lost (`C35_rebates_can_be_lost`) and locked in the vault
  for ever (`C72_what_strands`, `C72_it_stays`).
* The open-orders loader overwrites the padding instead of checking it (`C43_orders_padding_refuted`); initialisation checks only the
  header of an account said to be empty (`C43_fresh_refuted`).
* Pools: the same vault may be listed twice (`C40_duplicate_vaults_refuted`); a vault may belong to somebody else who merely delegated it
  (`C40_vault_owner_refuted`); removing an asset, unpausing and adding it again leaves a lent vault in an unpaused pool
  (`C41_delegates_refuted`); the creator of a pool can stop all redemptions by closing their own fee account
  (`C62_holders_can_leave_refuted`); the quote of a redemption ignores the fee (`C50_redemption_quote_refuted`).
* Proxy: `InitOpenOrders` accepts any bump, but later calls sign with the canonical one only, so the account is stranded
  (`C42_users_can_use_what_they_open_refuted`); an order through the proxy also revokes an allowance given earlier (`C42_order`);
  an instruction the proxy does not relay succeeds and does nothing (`C42_nothing_else`).
* Example program: whom a revoked token belonged to is not checked, so anyone can prune any user
  (`C60_only_the_revoked_are_pruned_refuted`).

Noticed while modelling, without a theorem of their own:

* `SendTake`'s referral fifth of the fee is counted as rebate but belongs to no account, so it can never leave the vault (`C72_for_ever`); `SendTake` does not ask the open-orders authority;
  its `min_coin_qty` is in lots; on an ask it never bounds `max_coin_qty * lot`.
* `CancelOrderByClientIdV2` cancels the first slot with that id; `Prune` takes the order ids from the account's slots.
* `NewOrderV3` with 14 accounts reads the thirteenth as discount account only in some shapes.
* `InitializeMarket` accepts zero lot sizes, one account for both books, one account for both vaults if the mints are equal, and
  does not require the market account itself to be rent exempt.
* A full book boots its worst order even if the new one is worse; `ConsumeEvents` stops with success when the head's owner is
  not supplied; settling into a vault leaves the money there; a mint's freeze authority can stop settlement; a disabled
  market can be neither swept nor pruned, so fees not swept before are lost (`C79_disabled_fees_are_stuck`); `maker_rebate` is 0 on every tier; packed replace lists of more than 8 never decode.
* Pools: initialisation does not look at the close authority of vaults; `AddAsset` looks at neither delegate nor close authority; the first
  admin need not sign; a fee panics when twice the whole fee reaches 2^64.
* Proxy: the checked minimum account counts are smaller than the indices used (a panic, hence a failed transaction).

## 7. Trusted base

* The kernel of Coq 8.16.1, including its `vm_compute` (used by examples and counterexamples only).
* `Print Assumptions` under each of the 318 theorems prints "Closed under the global context": none depends on any
  axiom.  (`coqchk -o` lists the seven `Coq.ssr.ssrunder.Under_rel.*` parameters of the standard library, because `lia`'s
  preprocessing loads that file; no theorem here depends on them.)
* No axiom, parameter, admitted proof or unchecked definition is declared; no kernel check is switched off; there are no functors or
  module types.
* The faithfulness of the transcription to the Rust text, which is what citations and mutation tests are for, and the
  model of the surroundings (section 4).

## 8. Mutation tests

In a copy outside `/verif` a definition of the model is changed the way a programmer might get it wrong, and everything is rebuilt.
`seeded/LOG.jsonl` has one line per attempt: the definition, the edit, the claim it breaks, the theorems whose proof then
fails, and, where a theorem had gone on proving a claim that had become false, how it was tightened.

How to read `theorems_failed`:

* m01-m45: first the lemma whose proof fails, then the property theorems of the claim, which can no longer be built because their
  proofs use files that use this lemma.  That the lemma fails is an observation; that the property theorem rests on that very lemma is
  not recorded in these lines.
* From m46 on the harness removes the broken proofs one after the other (in the copy only), builds all the rest, and asks `Print
  Assumptions` of every property theorem which of the removed proofs it needs.  A property theorem is listed only if it needs one.
