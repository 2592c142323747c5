{
 "claims": [
  {
   "property": "C01",
   "status": "proved",
   "theorems": [
    "C01_taker_fee"
   ],
   "note": "Exact rounded-up fee for all u64 trade sizes and all tiers."
  },
  {
   "property": "C02",
   "status": "proved",
   "theorems": [
    "C02_net_fee_nonnegative"
   ],
   "note": ""
  },
  {
   "property": "C03",
   "status": "proved",
   "theorems": [
    "C03_spend_limit",
    "C03_market_order_fee",
    "C03_add_then_remove"
   ],
   "note": ""
  },
  {
   "property": "C04",
   "status": "proved",
   "theorems": [
    "C04_tier_table",
    "C04_tier_monotone",
    "C04_discount_account",
    "C04_foreign_discount_rejected"
   ],
   "note": ""
  },
  {
   "property": "C05",
   "status": "proved",
   "theorems": [
    "C05_book_is_finite_map"
   ],
   "note": ""
  },
  {
   "property": "C06",
   "status": "proved",
   "theorems": [
    "C06_extreme_lookup"
   ],
   "note": ""
  },
  {
   "property": "C07",
   "status": "proved",
   "theorems": [
    "C07_storage_integrity",
    "C07_out_of_space_exact"
   ],
   "note": ""
  },
  {
   "property": "C08",
   "status": "proved",
   "theorems": [
    "C08_owner_search"
   ],
   "note": ""
  },
  {
   "property": "C09",
   "status": "proved",
   "theorems": [
    "C09_fifo"
   ],
   "note": ""
  },
  {
   "property": "C10",
   "status": "proved",
   "theorems": [
    "C10_event_roundtrip",
    "C10_request_roundtrip",
    "C10_event_decode_faithful",
    "C10_request_decode_faithful",
    "C10_event_written",
    "C10_request_written",
    "C10_only_written_flags_refuted"
   ],
   "note": "The broader claim that only flag bytes the writer produces are accepted is refuted (theorem ending in _refuted)."
  },
  {
   "property": "C11",
   "status": "proved",
   "theorems": [
    "C11_roundtrip",
    "C11_decode_exact",
    "C11_header",
    "C11_replace_limit",
    "C11_wire_format",
    "C11_wire_format_accepted",
    "C11_wire_format_packed"
   ],
   "note": ""
  },
  {
   "property": "C12",
   "status": "proved",
   "theorems": [
    "C12_order_ids",
    "C12_distinct_across_sides_refuted"
   ],
   "note": "Distinctness across sides fails once the counter passes 2^63 (theorem ending in _refuted)."
  },
  {
   "property": "C13",
   "status": "proved",
   "theorems": [
    "C13_order_keeps_uncrossed",
    "C13_never_crossed"
   ],
   "note": "Over every history in which unchecked 64-bit counters do not overflow at the start of a transaction (World.v no_overflow), for markets with positive lot sizes and two distinct book accounts."
  },
  {
   "property": "C14",
   "status": "proved",
   "theorems": [
    "C14_ioc_never_rests"
   ],
   "note": ""
  },
  {
   "property": "C15",
   "status": "proved",
   "theorems": [
    "C15_post_only_never_takes"
   ],
   "note": ""
  },
  {
   "property": "C16",
   "status": "proved",
   "theorems": [
    "C16_trades_at_resting_price"
   ],
   "note": ""
  },
  {
   "property": "C17",
   "status": "proved",
   "theorems": [
    "C17_taker_spend_exact"
   ],
   "note": ""
  },
  {
   "property": "C18",
   "status": "proved",
   "theorems": [
    "C18_self_trade",
    "C18_abort_refuses"
   ],
   "note": ""
  },
  {
   "property": "C19",
   "status": "proved",
   "theorems": [
    "C19_match_limit",
    "C19_never_panics"
   ],
   "note": ""
  },
  {
   "property": "C20",
   "status": "proved",
   "theorems": [
    "C20_eviction"
   ],
   "note": ""
  },
  {
   "property": "C21",
   "status": "proved",
   "theorems": [
    "C21_every_market_is_seen",
    "C21_coin_conserved"
   ],
   "note": "Over every history in which unchecked 64-bit counters do not overflow at the start of a transaction (World.v no_overflow), for markets with positive lot sizes and two distinct book accounts."
  },
  {
   "property": "C22",
   "status": "proved",
   "theorems": [
    "C22_pc_conserved"
   ],
   "note": "Over every history in which unchecked 64-bit counters do not overflow at the start of a transaction (World.v no_overflow), for markets with positive lot sizes and two distinct book accounts."
  },
  {
   "property": "C23",
   "status": "proved",
   "theorems": [
    "C23_locked_is_resting_plus_pending"
   ],
   "note": "Over every history in which unchecked 64-bit counters do not overflow at the start of a transaction (World.v no_overflow), for markets with positive lot sizes and two distinct book accounts."
  },
  {
   "property": "C24",
   "status": "proved",
   "theorems": [
    "C24_limited_supply_suffices",
    "C24_counters_in_range",
    "C24_deposits_cover_the_books",
    "C24_small_vaults_suffice",
    "C24_wraps_without_the_guard_refuted"
   ],
   "note": "Proved within the guard no_overflow of World.v; C24_small_vaults_suffice derives the guard from a bound on vault balances times the size of the event queue, C24_limited_supply_suffices from a bound on the supply of the two tokens. C24_wraps_without_the_guard_refuted is a concrete history outside the guard in which a total wraps."
  },
  {
   "property": "C25",
   "status": "proved",
   "theorems": [
    "C25_slots_and_book_agree"
   ],
   "note": "Over every history in which unchecked 64-bit counters do not overflow at the start of a transaction (World.v no_overflow), for markets with positive lot sizes and two distinct book accounts."
  },
  {
   "property": "C26",
   "status": "proved",
   "theorems": [
    "C26_never_fails",
    "C26_head_can_be_consumed",
    "C26_queue_can_be_drained"
   ],
   "note": "Over every history in which unchecked 64-bit counters do not overflow at the start of a transaction (World.v no_overflow), for markets with positive lot sizes and two distinct book accounts. The state acted on satisfies the guard as well."
  },
  {
   "property": "C27",
   "status": "proved",
   "theorems": [
    "C27_exactly_the_served_prefix",
    "C27_splitting",
    "C27_who_processes_makes_no_difference"
   ],
   "note": "Over every history in which unchecked 64-bit counters do not overflow at the start of a transaction (World.v no_overflow), for markets with positive lot sizes and two distinct book accounts. The state acted on satisfies the guard as well."
  },
  {
   "property": "C28",
   "status": "proved",
   "theorems": [
    "C28_cancel_returns_what_was_locked",
    "C28_nobody_cancels_for_others"
   ],
   "note": "Over every history in which unchecked 64-bit counters do not overflow at the start of a transaction (World.v no_overflow), for markets with positive lot sizes and two distinct book accounts."
  },
  {
   "property": "C29",
   "status": "proved",
   "theorems": [
    "C29_owner_can_always_cancel",
    "C29_owner_can_always_cancel_by_client_ids",
    "C29_owner_can_always_cancel_by_client_id",
    "C29_cancel_by_a_reused_client_id_refuted"
   ],
   "note": "Over every history in which unchecked 64-bit counters do not overflow at the start of a transaction (World.v no_overflow), for markets with positive lot sizes and two distinct book accounts. Cancelling by one client id is proved where the id is unique among the used slots of the account, and refuted otherwise."
  },
  {
   "property": "C30",
   "status": "proved",
   "theorems": [
    "C30_settle_pays_exactly_the_free_amounts",
    "C30_settle_is_always_possible"
   ],
   "note": "Over every history in which unchecked 64-bit counters do not overflow at the start of a transaction (World.v no_overflow), for markets with positive lot sizes and two distinct book accounts. That a settle goes through also needs the vaults not to be frozen by the mint's freeze authority."
  },
  {
   "property": "C31",
   "status": "proved",
   "theorems": [
    "C31_send_take",
    "C31_only_the_minimum_refuses"
   ],
   "note": "C31_send_take over every history in which unchecked 64-bit counters do not overflow at the start of a transaction (World.v no_overflow), for markets with positive lot sizes and two distinct book accounts; the state acted on satisfies the guard as well. C31_only_the_minimum_refuses needs no guard on the state acted on; the room asked of the receiving wallet is all the market holds in that currency, and neither wallet is one of the vaults."
  },
  {
   "property": "C32",
   "status": "proved",
   "theorems": [
    "C32_owner_signature",
    "C32_owner_must_sign",
    "C32_one_account",
    "C32_prune_and_crank_move_no_tokens"
   ],
   "note": "Over every history whatever (no guard). Send-take uses no open-orders account. Multisig owners are not modelled."
  },
  {
   "property": "C33",
   "status": "proved",
   "theorems": [
    "C33_disable",
    "C33_sweep",
    "C33_fees_leave_only_by_sweeping",
    "C33_prune",
    "C33_consume",
    "C33_opening"
   ],
   "note": "Over every history whatever (no guard), except that fees leave only by sweeping, which is over guarded histories."
  },
  {
   "property": "C34",
   "status": "proved",
   "theorems": [
    "C34_disabled_means_no_trading",
    "C34_disabled_forever",
    "C34_close_possible"
   ],
   "note": "Over every history whatever (no guard); that cancelling, consuming and settling stay possible is C29, C26 and C30, which do not assume the market enabled. A disabled market can also not be swept or pruned."
  },
  {
   "property": "C35",
   "status": "proved",
   "theorems": [
    "C35_close_only_when_empty",
    "C35_nothing_refers_to_it",
    "C35_closed_is_dead",
    "C35_rebates_can_be_lost"
   ],
   "note": "Closing does not look at the referrer's share: C35_rebates_can_be_lost shows a history in which it is lost. The runtime may reclaim a closed account, having no lamports."
  },
  {
   "property": "C36",
   "status": "proved",
   "theorems": [
    "C36_cancel_by_client_ids",
    "C36_cancel_by_client_id"
   ],
   "note": "Over every history in which unchecked 64-bit counters do not overflow at the start of a transaction (World.v no_overflow), for markets with positive lot sizes and two distinct book accounts."
  },
  {
   "property": "C37",
   "status": "proved",
   "theorems": [
    "C37_replace_many",
    "C37_replace_one"
   ],
   "note": "Over every history in which unchecked 64-bit counters do not overflow at the start of a transaction (World.v no_overflow), for markets with positive lot sizes and two distinct book accounts. Lists of at most 8 (longer ones never decode)."
  },
  {
   "property": "C38",
   "status": "not_applicable",
   "theorems": [],
   "note": "A guarantee of the Solana runtime, not of this code; the model builds it in (Process.v transact)."
  },
  {
   "property": "C39",
   "status": "proved",
   "theorems": [
    "C39_fee_schedule",
    "C39_shares",
    "C39_charged"
   ],
   "note": ""
  },
  {
   "property": "C40",
   "status": "proved",
   "theorems": [
    "C40_creation",
    "C40_redemption",
    "C40_backing_never_falls",
    "C40_no_free_assets",
    "C40_round_trip",
    "C40_duplicate_vaults_refuted",
    "C40_vault_owner_refuted"
   ],
   "note": "For the default and the admin-controlled implementation. Backing needs distinct vaults that only the pool controls (held) and no act of the administrator; without distinct vaults it is refuted, and the program accepts vaults it does not own (theorems ending in _refuted)."
  },
  {
   "property": "C41",
   "status": "proved",
   "theorems": [
    "C41_only_admin",
    "C41_user_history",
    "C41_paused_blocks",
    "C41_requests",
    "C41_unpausing",
    "C41_always",
    "C41_delegates_refuted"
   ],
   "note": "The claim that an unpaused pool has no lent vault is refuted (theorem ending in _refuted)."
  },
  {
   "property": "C42",
   "status": "proved",
   "theorems": [
    "C42_accounts_belong_to_users",
    "C42_not_around_the_proxy",
    "C42_only_the_user",
    "C42_owner_agrees",
    "C42_tokens",
    "C42_order",
    "C42_order_accepted",
    "C42_open",
    "C42_forwarded",
    "C42_accepted",
    "C42_referral",
    "C42_prune",
    "C42_consume",
    "C42_nothing_else",
    "C42_histories",
    "C42_histories_guarded",
    "C42_users_can_use_what_they_open_refuted"
   ],
   "note": "That users can always use what they open is refuted (theorem ending in _refuted): the bump of InitOpenOrders is not checked to be canonical. Program-derived addresses are an oracle without collisions; custom middlewares are not modelled."
  },
  {
   "property": "C43",
   "status": "proved",
   "theorems": [
    "C43_exactly",
    "C43_orders_exactly",
    "C43_one_kind",
    "C43_fresh_is_unused",
    "C43_orders_padding",
    "C43_orders_padding_refuted",
    "C43_fresh_refuted",
    "C43_market_loader",
    "C43_book_loader",
    "C43_request_queue_loader",
    "C43_event_queue_loader",
    "C43_orders_loader",
    "C43_market_bytes",
    "C43_permissioned_market_bytes",
    "C43_orders_bytes",
    "C43_event_queue_bytes",
    "C43_request_queue_bytes",
    "C43_book_bytes",
    "C43_blank_request_queue",
    "C43_blank_event_queue",
    "C43_blank_book",
    "C43_market_offsets",
    "C43_orders_offsets"
   ],
   "note": "Bytes of all six kinds, all lengths. Refuted parts kept beside: open-orders padding is overwritten rather than checked, and the freshness test looks at padding and flags only (the runtime hands the program zeroed accounts)."
  },
  {
   "property": "C44",
   "status": "proved",
   "theorems": [
    "C44_assert_owner"
   ],
   "note": ""
  },
  {
   "property": "C45",
   "status": "proved",
   "theorems": [
    "C45_prune",
    "C45_prune_is_possible",
    "C45_prune_uses_its_limit_refuted"
   ],
   "note": "Over every history in which unchecked 64-bit counters do not overflow at the start of a transaction (World.v no_overflow), for markets with positive lot sizes and two distinct book accounts."
  },
  {
   "property": "C46",
   "status": "proved",
   "theorems": [
    "C46_new_order_charges_exactly"
   ],
   "note": "Over every history in which unchecked 64-bit counters do not overflow at the start of a transaction (World.v no_overflow), for markets with positive lot sizes and two distinct book accounts. The state acted on satisfies the guard as well."
  },
  {
   "property": "C47",
   "status": "proved",
   "theorems": [
    "C47_tokens_move_only_when_signed"
   ],
   "note": "Over every history whatever (no guard)."
  },
  {
   "property": "C48",
   "status": "proved",
   "theorems": [
    "C48_market_configuration_is_forever",
    "C48_account_owner_is_forever"
   ],
   "note": "Over every history whatever (no guard). Open-orders accounts keep owner and market under every instruction until closed."
  },
  {
   "property": "C49",
   "status": "proved",
   "theorems": [
    "C49_state_codec",
    "C49_request_codec",
    "C49_admin_codec",
    "C49_state_format",
    "C49_request_format",
    "C49_admin_format",
    "C49_paused_format"
   ],
   "note": "UTF-8 validity of names is an oracle."
  },
  {
   "property": "C50",
   "status": "proved",
   "theorems": [
    "C50_quote",
    "C50_redemption_quote_refuted"
   ],
   "note": "The return-buffer program is an oracle. Equality of the redemption quote with the payment is refuted (theorem ending in _refuted)."
  },
  {
   "property": "C54",
   "status": "proved",
   "theorems": [
    "C54_everyone_can_leave_with_everything"
   ],
   "note": "Needs: wallets of the right mints with room, vaults not frozen by the mint authority, the counters of the market within the no_overflow guard, and where a crank authority exists that it signs. The sequence consumes one event per transaction, cancels one order per two transactions (cancel, consume), then settles and closes."
  },
  {
   "property": "C51",
   "status": "proved",
   "theorems": [
    "C51_expired_orders_are_refused",
    "C51_expired_orders_change_nothing",
    "C51_time_decides_nothing_else"
   ],
   "note": "All clocks; the rent sysvar is held fixed in the third theorem."
  },
  {
   "property": "C52",
   "status": "proved",
   "theorems": [
    "C52_a_new_market_is_as_asked",
    "C52_anyone_can_open_a_market",
    "C52_opened_markets_are_usable_refuted"
   ],
   "note": "Usability of every opened market is refuted beside it (theorem ending in _refuted). The rent sysvar is an oracle."
  },
  {
   "property": "C53",
   "status": "proved",
   "theorems": [
    "C53_a_funded_order_is_accepted"
   ],
   "note": "Sufficient conditions over all reachable states; the queue bound (four events per round) is not the least one. Amount conditions are stated in terms of the market's counters and the account's totals."
  },
  {
   "property": "C55",
   "status": "proved",
   "theorems": [
    "C55_decoded",
    "C55_writable_suffices",
    "C55_cancel_works",
    "C55_cancel_by_client_ids_works",
    "C55_cancel_by_client_id_works",
    "C55_settle_works",
    "C55_close_works",
    "C55_prune_works",
    "C55_consume_works",
    "C55_permissioned_consume_works",
    "C55_new_order_works",
    "C55_send_take_works",
    "C55_sweep_works",
    "C55_disable_works",
    "C55_init_open_orders_works",
    "C55_match_orders_is_empty",
    "C55_initialize_works",
    "C55_consume_in_any_order_refuted",
    "C55_authority_is_kept_refuted"
   ],
   "note": "Decoding, signers and writable accounts for all fifteen builders, and success from every reachable state for each. Two stronger readings are refuted."
  },
  {
   "property": "C56",
   "status": "proved",
   "theorems": [
    "C56_accounts_pay_when_opened",
    "C56_markets_pay_when_opened",
    "C56_lamports_move_only_by_closing",
    "C56_market_account_pays_refuted"
   ],
   "note": "Rent exemption is the oracle c_exempt of the clock and rent sysvars; over all histories without any overflow guard."
  },
  {
   "property": "C57",
   "status": "proved",
   "theorems": [
    "C57_one_market_at_a_time",
    "C57_no_other_vault_loses",
    "C57_other_vaults_unchanged_refuted"
   ],
   "note": "The frame holds at any time, without the overflow guard; that vaults lose nothing is over guarded histories. Equality of the other vaults is refuted."
  },
  {
   "property": "C58",
   "status": "proved",
   "theorems": [
    "C58_keys_read",
    "C58_length_read",
    "C58_once",
    "C58_once_always_progresses_refuted",
    "C58_turn",
    "C58_stale_harmless",
    "C58_once_stale_harmless",
    "C58_authority_refuses",
    "C58_turns_drain",
    "C58_serves_every_market_refuted"
   ],
   "note": "What the program fetches are arguments and what it sends are results; fetched bytes are bytes of accounts of a reachable state (LayoutSpec.holds), the head of the request queue being 0 as InitializeMarket leaves it. Two expectations are refuted."
  },
  {
   "property": "C59",
   "status": "proved",
   "theorems": [
    "C59_listing",
    "C59_new_account",
    "C59_trades_like_the_client"
   ],
   "note": "The system program create_account and the node's answer about rent are modelled as external (sys_create, rent); creation of the token vaults by the token program is a hypothesis."
  },
  {
   "property": "C60",
   "status": "proved",
   "theorems": [
    "C60_not_around_the_program",
    "C60_only_with_the_token",
    "C60_accounts_belong_to_users",
    "C60_users",
    "C60_users_served",
    "C60_accepted",
    "C60_referral",
    "C60_prune",
    "C60_consume",
    "C60_crank",
    "C60_nothing_else",
    "C60_anyone_prunes",
    "C60_anyone_consumes",
    "C60_histories",
    "C60_histories_guarded",
    "C60_only_the_revoked_are_pruned_refuted"
   ],
   "note": "Anchor's dispatch of IDL calls in front of the entry point is left out. Derived addresses are assumed not to collide (px_ok, prune_ok)."
  },
  {
   "property": "C61",
   "status": "proved",
   "theorems": [
    "C61_the_life_of_an_order",
    "C61_the_balance_of_an_order",
    "C61_the_causes",
    "C61_every_history_counts"
   ],
   "note": "Over every history in which unchecked 64-bit counters do not overflow at the start of a transaction (World.v no_overflow), for markets with positive lot sizes and two distinct book accounts. The further history is under the same guard. Events are those of the market's event queue, in the order they were queued."
  },
  {
   "property": "C62",
   "status": "proved",
   "theorems": [
    "C62_creation_goes_through",
    "C62_redemption_goes_through",
    "C62_no_ruler",
    "C62_fee_account_missing",
    "C62_holders_can_leave_refuted"
   ],
   "note": "For the simple and the admin-controlled pool. The accounts of a call are required to be distinct, not frozen and not delegated to their own owner (prepared); amounts up to 2^63-1, as the code requires of each part of a basket. C62_holders_can_leave_refuted shows that the creator of a pool can stop redemptions by closing their fee account."
  },
  {
   "property": "C63",
   "status": "proved",
   "theorems": [
    "C63_price_time_priority",
    "C63_later_ranks_behind",
    "C63_rank_read"
   ],
   "note": "Over every history in which unchecked 64-bit counters do not overflow at the start of a transaction (World.v no_overflow), for markets with positive lot sizes and two distinct book accounts. Events are those of the market's event queue, in the order they were queued."
  },
  {
   "property": "C64",
   "status": "proved",
   "theorems": [
    "C64_the_absent_trader",
    "C64_the_events"
   ],
   "note": "Over every history in which unchecked 64-bit counters do not overflow at the start of a transaction (World.v no_overflow), for markets with positive lot sizes and two distinct book accounts. An order pruned, or evicted from a full side, counts as no longer resting with its funds released."
  },
  {
   "property": "C65",
   "status": "proved",
   "theorems": [
    "C65_best_execution_of_orders",
    "C65_best_execution_of_takes",
    "C65_orders_trade_all_they_can",
    "C65_takes_trade_all_they_can",
    "C65_no_other_trades"
   ],
   "note": "Over every history in which unchecked 64-bit counters do not overflow at the start of a transaction (World.v no_overflow), for markets with positive lot sizes and two distinct book accounts. Prices are compared before fees: the fee is rounded up in each meeting, so its total depends on how the lots are spread."
  },
  {
   "property": "C66",
   "status": "proved",
   "theorems": [
    "C66_the_statement_balances",
    "C66_the_life_of_an_account",
    "C66_there_is_a_statement"
   ],
   "note": "Over every history in which unchecked 64-bit counters do not overflow at the start of a transaction (World.v no_overflow), for markets with positive lot sizes, two distinct book accounts and two distinct vaults (the code lets a market be created with one account as both vaults). Referrer rebates are not part of the account's amounts (C22, C30)."
  },
  {
   "property": "C67",
   "status": "proved",
   "theorems": [
    "C67_an_order_is_accepted_or_the_reason_is_true",
    "C67_a_refused_order_says_why",
    "C67_a_cancel_works_or_the_reason_is_true",
    "C67_a_refused_cancel_says_why",
    "C67_a_prune_works_or_the_queue_is_full",
    "C67_an_account_closes_or_is_in_use"
   ],
   "note": "Over every history in which unchecked 64-bit counters do not overflow at the start of a transaction (World.v no_overflow). Errors about the listed accounts (missing, of the wrong kind, unsigned, not the market's) are named but not explained one by one. SendTake is C69, replacing is C70. The exact reason for EventQueueFull is stated for queues of fewer than 2^62 places (an account holds at most 10 MB); beyond that only an upper bound on the events is given."
  },
  {
   "property": "C68",
   "status": "proved",
   "theorems": [
    "C68_every_error_has_its_published_number",
    "C68_no_two_errors_share_a_number",
    "C68_numbers_read_back",
    "C68_failed_checks_name_their_line",
    "C68_files_differ",
    "C68_modelled_errors_differ"
   ],
   "note": "The model's [err] leaves out line numbers; Errors.v models the numbers themselves. line!() as u16 wraps at 65536 lines; the longest source file has fewer than 4000."
  },
  {
   "property": "C69",
   "status": "proved",
   "theorems": [
    "C69_a_take_works_or_the_reason_is_true",
    "C69_a_refused_take_says_why"
   ],
   "note": "Over every history in which unchecked 64-bit counters do not overflow at the start of a transaction (World.v no_overflow). As in C67, errors about the listed accounts are named only, and the exact reason for EventQueueFull is stated for queues of fewer than 2^62 places."
  },
  {
   "property": "C70",
   "status": "proved",
   "theorems": [
    "C70_a_replace_works_or_the_reason_is_true",
    "C70_a_refused_replace_says_why"
   ],
   "note": "Over every history in which unchecked 64-bit counters do not overflow at the start of a transaction (World.v no_overflow). 'Amounts fit' is amounts_fit (ReplaceErrorSpec.v): what may be received, at most the market's deposits per order, and twice what may be paid."
  },
  {
   "property": "C71",
   "status": "proved",
   "theorems": [
    "C71_the_books_balance",
    "C71_paid_from_income",
    "C71_never_at_a_loss",
    "C71_the_books_go_on"
   ],
   "note": "Over every history in which unchecked 64-bit counters do not overflow at the start of a transaction (World.v no_overflow). That nobody pays into the market's vaults is pays_others (IncomeSpec.v) and is needed: C71_own_vault."
  },
  {
   "property": "C72",
   "status": "proved",
   "theorems": [
    "C72_what_strands",
    "C72_it_stays",
    "C72_for_ever"
   ],
   "note": "Over every history in which unchecked 64-bit counters do not overflow at the start of a transaction (World.v no_overflow). A statement about the program as deployed; replacing the program is outside the model."
  },
  {
   "property": "C73",
   "status": "proved",
   "theorems": [
    "C73_more_gets_no_less",
    "C73_same_terms_same_trades",
    "C73_same_sender",
    "C73_before_or_after_a_crank"
   ],
   "note": "Over every history in which unchecked 64-bit counters do not overflow at the start of a transaction (World.v no_overflow). PostOnly orders, which never trade, and orders placed by a replace are not compared."
  },
  {
   "property": "C74",
   "status": "proved",
   "theorems": [
    "C74_trades_stay_within_the_orders",
    "C74_gains_and_losses_stay_within_the_orders",
    "C74_there_is_a_record"
   ],
   "note": "Over every history in which unchecked 64-bit counters do not overflow at the start of a transaction (World.v no_overflow). The account's gains and losses count what its own orders put into the vaults and what its settlements paid out; referral payments are separate (C71, C72)."
  },
  {
   "property": "C75",
   "status": "proved",
   "theorems": [
    "C75_a_backlog_keeps_nobody_out"
   ],
   "note": "From every history whose state meets no_overflow (World.v): the 64-bit counters leave room for the promised amounts. Token amounts of the order must fit the vault and counters, as in C53; the vaults must not be frozen by the mint's authority; the market must not be disabled for orders and SendTakes (cancelling needs neither)."
  },
  {
   "property": "C76",
   "status": "proved",
   "theorems": [
    "C76_each_gets_its_share",
    "C76_in_full",
    "C76_in_parts"
   ],
   "note": "From every history whose state meets no_overflow (World.v): the 64-bit counters leave room for the promised amounts. Amounts are before fees; fees are C01 and C46."
  },
  {
   "property": "C77",
   "status": "proved",
   "theorems": [
    "C77_no_gain_at_a_fair_price",
    "C77_nothing_for_nothing"
   ],
   "note": "Between transactions the rest of the world acts as in rely (World.v); every transaction starts in a state that meets no_overflow and sized. What each account holds follows from its trades by C66. A referrer's share is paid out of the income (C71)."
  },
  {
   "property": "C78",
   "status": "proved",
   "theorems": [
    "C78_in_turn",
    "C78_free_in_turn",
    "C78_all_out"
   ],
   "note": "Every transaction starts in a state that meets no_overflow and sized (World.v). That anybody can process the events is C26; that settling pays what is free is C30; closing is C35 and C54. The referrer's share of fees is not part of the claim."
  },
  {
   "property": "C79",
   "status": "proved",
   "theorems": [
    "C79_sweeping_possible",
    "C79_disabling_possible",
    "C79_opening_possible",
    "C79_disabled_fees_are_stuck"
   ],
   "note": "Sweeping assumes that the mint's freeze authority has not frozen the vault. The stretch after disabling starts each transaction in a state that meets no_overflow and sized (World.v)."
  },
  {
   "property": "C80",
   "status": "proved",
   "theorems": [
    "C80_only_the_named_accounts_matter",
    "C80_only_the_named_accounts_change",
    "C80_other_programs_accounts_are_untouched",
    "C80_independent_transactions_commute",
    "C80_disjoint_transactions_commute",
    "C80_any_transactions_commute_refuted"
   ],
   "note": "That any two transactions commute is refuted (C80_any_transactions_commute_refuted). Stated for transactions of one instruction."
  },
  {
   "property": "C81",
   "status": "proved",
   "theorems": [
    "C81_taking_an_order_back_undoes_it"
   ],
   "note": "For a cancel directly after the order; for later ones see C61 and C66. The slot is freed when the final event is consumed (C25, C27)."
  },
  {
   "property": "C82",
   "status": "proved",
   "theorems": [
    "C82_only_these_abort",
    "C82_removed_aborts",
    "C82_short_replace_aborts"
   ],
   "note": "For what the model calls a panic: errors of malformed accounts are modelled as errors, as Process.v says, also where the code indexes a slice, and the runtime's own limits (compute units, stack, borrows) are outside. A take that offers 2^64 units aborts only if the bids it meets are for as much, as in the second example. That every error is justified is C67, C69, C70 and C75."
  },
  {
   "property": "C83",
   "status": "proved",
   "theorems": [
    "C83_order_and_settlement",
    "C83_same_as_a_take"
   ],
   "note": "The take and the order run in the same state; the comparison assumes all three instructions succeed (when a take or an order succeeds is C67 and C69). The events about others are compared without their fee tier, which no balance depends on."
  },
  {
   "property": "C84",
   "status": "proved",
   "theorems": [
    "C84_tokens_neither_made_nor_lost",
    "C84_lamports_neither_made_nor_lost"
   ],
   "note": "The token program's transfer is part of the model (trusted base); minting and burning by others are steps of the environment."
  },
  {
   "property": "C85",
   "status": "proved",
   "theorems": [
    "C85_all_or_nothing",
    "C85_is_a_history",
    "C85_is_a_guarded_history",
    "C85_tokens_neither_made_nor_lost"
   ],
   "note": "That the runtime keeps nothing of a failed transaction is the definition of bundle (trusted base). Instructions of other programs in the same transaction are steps of the environment."
  },
  {
   "property": "C86",
   "status": "proved",
   "theorems": [
    "C86_pool_tokens_as_recorded"
   ],
   "note": "The token program's instructions are part of the model (trusted base); what other programs mint or burn are steps of the environment."
  },
  {
   "property": "C87",
   "status": "proved",
   "theorems": [
    "C87_counter_step",
    "C87_counter_bound",
    "C87_limited_supply_alone"
   ],
   "note": "C87_counter_step and C87_counter_bound need no guard at all; C87_limited_supply_alone needs env_ok."
  },
  {
   "property": "C88",
   "status": "proved",
   "theorems": [
    "C88_places_kept",
    "C88_limit_lasts",
    "C88_limit_lasts_in_a_transaction",
    "C88_limit_suffices"
   ],
   "note": "C88_places_kept needs no invariant; the limits can be left only by steps of other programs (minting, allocating)."
  },
  {
   "property": "C89",
   "status": "proved",
   "theorems": [
    "C89_new_pool"
   ],
   "note": "Added after the seeded removal of the owner check in check_lqd_fee_account broke no theorem. The program of the fee account is checked only by later requests."
  }
 ]
}