{
 "claims": [
  {
   "property": "C01",
   "status": "proved",
   "theorems": [
    "C01_escrow_funded"
   ],
   "note": ""
  },
  {
   "property": "C02",
   "status": "proved",
   "theorems": [
    "C02_conservation",
    "C02_never_pays_more"
   ],
   "note": "Equation under a collision-free hash and fewer than 2^64 calls (otherwise an id clash could overwrite a bid); the inequality needs neither."
  },
  {
   "property": "C03",
   "status": "partial",
   "theorems": [
    "C03_coins_returned_refuted",
    "C03_coins_always_kept"
   ],
   "note": "False of the code: refuted by a reachable run in which 7 coins attached to AcceptCollectionBid stay in the contract; C03_coins_always_kept shows this happens in every such call."
  },
  {
   "property": "C04",
   "status": "proved",
   "theorems": [
    "C04_custody",
    "C04_listed_once"
   ],
   "note": "Assumes the royalty registry does not re-enter the marketplace."
  },
  {
   "property": "C05",
   "status": "proved",
   "theorems": [
    "C05_never_crossed"
   ],
   "note": ""
  },
  {
   "property": "C06",
   "status": "proved",
   "theorems": [
    "C06_split_exact"
   ],
   "note": ""
  },
  {
   "property": "C07",
   "status": "proved",
   "theorems": [
    "C07_fee_formula"
   ],
   "note": ""
  },
  {
   "property": "C08",
   "status": "proved",
   "theorems": [
    "C08_royalty_capped"
   ],
   "note": ""
  },
  {
   "property": "C09",
   "status": "proved",
   "theorems": [
    "C09_best_bid"
   ],
   "note": ""
  },
  {
   "property": "C10",
   "status": "proved",
   "theorems": [
    "C10_cheapest_ask"
   ],
   "note": ""
  },
  {
   "property": "C11",
   "status": "proved",
   "theorems": [
    "C11_limit_prices"
   ],
   "note": ""
  },
  {
   "property": "C12",
   "status": "proved",
   "theorems": [
    "C12_bid_changes",
    "C12_collection_bid_changes",
    "C12_ask_changes"
   ],
   "note": ""
  },
  {
   "property": "C13",
   "status": "proved",
   "theorems": [
    "C13_withdraw_bid",
    "C13_withdraw_collection_bid"
   ],
   "note": ""
  },
  {
   "property": "C14",
   "status": "proved",
   "theorems": [
    "C14_withdraw_ask"
   ],
   "note": ""
  },
  {
   "property": "C15",
   "status": "proved",
   "theorems": [
    "C15_charged_exactly"
   ],
   "note": ""
  },
  {
   "property": "C16",
   "status": "proved",
   "theorems": [
    "C16_immediate_sells",
    "C16_sell_fails",
    "C16_buy_fails"
   ],
   "note": ""
  },
  {
   "property": "C17",
   "status": "proved",
   "theorems": [
    "C17_config_bounds"
   ],
   "note": ""
  },
  {
   "property": "C18",
   "status": "proved",
   "theorems": [
    "C18_only_admin",
    "C18_admin_calls",
    "C18_frozen_without_admin"
   ],
   "note": ""
  },
  {
   "property": "C19",
   "status": "proved",
   "theorems": [
    "C19_admin_inert"
   ],
   "note": ""
  },
  {
   "property": "C20",
   "status": "proved",
   "theorems": [
    "C20_listing_fee"
   ],
   "note": ""
  },
  {
   "property": "C21",
   "status": "proved",
   "theorems": [
    "C21_positive_prices"
   ],
   "note": ""
  },
  {
   "property": "C22",
   "status": "proved",
   "theorems": [
    "C22_placing_keeps",
    "C22_ids_never_reissued",
    "C22_bid_accepted",
    "C22_collection_bid_accepted"
   ],
   "note": ""
  },
  {
   "property": "C23",
   "status": "partial",
   "theorems": [
    "C23_ask_ids_refuted",
    "C23_ask_ids_distinct",
    "C23_resting_ids"
   ],
   "note": "False for arbitrary address strings (ids are hashes of unseparated concatenations); proved when no valid address is a prefix of another."
  },
  {
   "property": "C24",
   "status": "partial",
   "theorems": [
    "C24_opening_needs_tradable",
    "C24_sold_early_refuted",
    "C24_never_sold_early"
   ],
   "note": "(a) proved. (b) false: refuted by moving the start time after listing; proved for collections that were never tradable."
  },
  {
   "property": "C25",
   "status": "proved",
   "theorems": [
    "C25_asks_page",
    "C25_asks_walk",
    "C25_bids_page",
    "C25_bids_walk",
    "C25_collection_bids_page",
    "C25_collection_bids_walk"
   ],
   "note": ""
  },
  {
   "property": "C26",
   "status": "proved",
   "theorems": [
    "C26_asks_page",
    "C26_asks_walk",
    "C26_bids_page",
    "C26_bids_walk",
    "C26_collection_bids_page",
    "C26_collection_bids_walk"
   ],
   "note": ""
  },
  {
   "property": "C27",
   "status": "proved",
   "theorems": [
    "C27_lookup_asks",
    "C27_lookup_bids",
    "C27_lookup_collection_bids"
   ],
   "note": ""
  },
  {
   "property": "C28",
   "status": "proved",
   "theorems": [
    "C28_fees_fit",
    "C28_sale_succeeds"
   ],
   "note": ""
  },
  {
   "property": "C29",
   "status": "partial",
   "theorems": [
    "C29_poison_bid_refuted",
    "C29_dust_bid_refuted",
    "C29_seller_can_sell"
   ],
   "note": "False: refuted by a best bid with a finder that cannot receive coins and by a dust bid; proved when the best bid's payments can be received and fees leave room. C130_sell_exactly says exactly when selling into the best bid goes through."
  },
  {
   "property": "C30",
   "status": "proved",
   "theorems": [
    "C30_bid_leaves",
    "C30_collection_bid_leaves",
    "C30_ask_leaves",
    "C30_seller_paid"
   ],
   "note": ""
  },
  {
   "property": "C31",
   "status": "proved",
   "theorems": [
    "C31_identity_kept"
   ],
   "note": ""
  },
  {
   "property": "C32",
   "status": "partial",
   "theorems": [
    "C32_recipient_ignored_refuted",
    "C32_accept_bid_details",
    "C32_accept_collection_bid_details"
   ],
   "note": "False when the NFT is listed (refuted); proved when it is not."
  },
  {
   "property": "C33",
   "status": "proved",
   "theorems": [
    "C33_only_owner_sells",
    "C33_owner_approved"
   ],
   "note": ""
  },
  {
   "property": "C34",
   "status": "proved",
   "theorems": [
    "C34_auction_escrow"
   ],
   "note": "For every behaviour of the external crate sg-marketplace-common 1.1.0 (record lib) that splits the bid into fee, royalty and rest."
  },
  {
   "property": "C35",
   "status": "proved",
   "theorems": [
    "C35_custody",
    "C35_one_auction_per_nft"
   ],
   "note": ""
  },
  {
   "property": "C36",
   "status": "proved",
   "theorems": [
    "C36_bid_minimum",
    "C36_bids_rise"
   ],
   "note": ""
  },
  {
   "property": "C37",
   "status": "proved",
   "theorems": [
    "C37_outbid_refund",
    "C37_outbid_balances"
   ],
   "note": ""
  },
  {
   "property": "C38",
   "status": "proved",
   "theorems": [
    "C38_phases"
   ],
   "note": ""
  },
  {
   "property": "C39",
   "status": "partial",
   "theorems": [
    "C39_bid_end",
    "C39_end_never_earlier",
    "C39_time_left_refuted"
   ],
   "note": "All parts proved except that the first bid may leave less than the extension: refuted with a 60 s auction and a 900 s extension."
  },
  {
   "property": "C40",
   "status": "proved",
   "theorems": [
    "C40_cancel",
    "C40_reprice"
   ],
   "note": ""
  },
  {
   "property": "C41",
   "status": "proved",
   "theorems": [
    "C41_no_self_bid"
   ],
   "note": ""
  },
  {
   "property": "C42",
   "status": "proved",
   "theorems": [
    "C42_no_late_bid",
    "C42_no_early_settlement",
    "C42_removal_by_user",
    "C42_removal_by_chain"
   ],
   "note": ""
  },
  {
   "property": "C43",
   "status": "proved",
   "theorems": [
    "C43_settlement",
    "C43_settlement_balances",
    "C43_settled_once"
   ],
   "note": "Fee and royalty are those computed by the external crate (parameter lib); the split always sums to the winning bid."
  },
  {
   "property": "C44",
   "status": "proved",
   "theorems": [
    "C44_postponed_by_settle",
    "C44_postponed_by_end_block"
   ],
   "note": ""
  },
  {
   "property": "C45",
   "status": "partial",
   "theorems": [
    "C45_end_block_succeeds_refuted",
    "C45_end_block_succeeds_partial",
    "C45_end_block_effect"
   ],
   "note": "False: refuted for every lib by an auction ending later in the current second. Proved when every due auction is over and payable; the exact effect of a successful EndBlock is proved in general, and C122 says exactly when it fails."
  },
  {
   "property": "C46",
   "status": "partial",
   "theorems": [
    "C46_isolation_refuted",
    "C46_isolation_recipient_refuted",
    "C46_one_auction_blocks"
   ],
   "note": "False: refuted for every lib by a rogue collection advertising an invalid royalty address (EndBlock fails at every later time), and by a blocked recipient; C46_one_auction_blocks is the general statement. Individual SettleAuction still works (C68). C131_sudo_goes_exactly says exactly when EndBlock goes through."
  },
  {
   "property": "C47",
   "status": "partial",
   "theorems": [
    "C47_protection_refuted",
    "C47_protection_user_partial",
    "C47_protection_chain_partial"
   ],
   "note": "False: refuted (the window is dropped in an EndBlock with no due auction). Proved for auctions already over when max_auctions_to_settle_per_block > 0."
  },
  {
   "property": "C48",
   "status": "partial",
   "theorems": [
    "C48_fee_burnt",
    "C48_keeps_nothing_refuted"
   ],
   "note": "The fee is burnt exactly (proved); 'keeps nothing else' is false (refuted by overpaying)."
  },
  {
   "property": "C49",
   "status": "proved",
   "theorems": [
    "C49_config_valid",
    "C49_users_change_no_config",
    "C49_blocks_change_no_config"
   ],
   "note": ""
  },
  {
   "property": "C50",
   "status": "proved",
   "theorems": [
    "C50_create_allowed",
    "C50_reprice_allowed"
   ],
   "note": ""
  },
  {
   "property": "C51",
   "status": "partial",
   "theorems": [
    "C51_seller_page",
    "C51_seller_walk",
    "C51_end_time_page",
    "C51_end_time_walk",
    "C51_end_time_paging_refuted"
   ],
   "note": "Pages and walks proved; AuctionsByEndTime is pageable only when the end second of the last entry is passed too: the naive paging is refuted."
  },
  {
   "property": "C52",
   "status": "proved",
   "theorems": [
    "C52_v1_escrow"
   ],
   "note": ""
  },
  {
   "property": "C53",
   "status": "proved",
   "theorems": [
    "C53_v1_split"
   ],
   "note": ""
  },
  {
   "property": "C54",
   "status": "proved",
   "theorems": [
    "C54_v1_one_bid",
    "C54_v1_one_collection_bid",
    "C54_v1_replacement",
    "C54_v1_collection_replacement"
   ],
   "note": ""
  },
  {
   "property": "C55",
   "status": "proved",
   "theorems": [
    "C55_v1_ask_sale"
   ],
   "note": ""
  },
  {
   "property": "C56",
   "status": "proved",
   "theorems": [
    "C56_v1_reserved"
   ],
   "note": ""
  },
  {
   "property": "C57",
   "status": "proved",
   "theorems": [
    "C57_v1_open_ask",
    "C57_v1_live_bid",
    "C57_v1_live_collection_bid"
   ],
   "note": ""
  },
  {
   "property": "C58",
   "status": "proved",
   "theorems": [
    "C58_v1_bid_life",
    "C58_v1_collection_bid_life"
   ],
   "note": ""
  },
  {
   "property": "C59",
   "status": "proved",
   "theorems": [
    "C59_v1_clean_up",
    "C59_v1_collection_clean_up"
   ],
   "note": ""
  },
  {
   "property": "C60",
   "status": "proved",
   "theorems": [
    "C60_v1_bid_limits",
    "C60_v1_collection_bid_limits",
    "C60_v1_ask_limits"
   ],
   "note": ""
  },
  {
   "property": "C61",
   "status": "partial",
   "theorems": [
    "C61_v1_buy_now_refuted",
    "C61_v1_buy_now_partial"
   ],
   "note": "False: refuted (BuyNow below the asking price or on an auction leaves a resting bid). The exact rule is C61_v1_buy_now_partial."
  },
  {
   "property": "C62",
   "status": "partial",
   "theorems": [
    "C62_v1_max_price_refuted",
    "C62_v1_max_price_partial"
   ],
   "note": "False: refuted (UpdateAskPrice has no maximum). Proved: only UpdateAskPrice can exceed it."
  },
  {
   "property": "C63",
   "status": "proved",
   "theorems": [
    "C63_v1_hooks",
    "C63_v1_failing_hooks",
    "C63_v1_hooks_add_nothing"
   ],
   "note": "A hook contract may do anything or fail; out-of-gas inside a hook is not modelled."
  },
  {
   "property": "C64",
   "status": "partial",
   "theorems": [
    "C64_v1_asks_refuted",
    "C64_v1_asks_partial"
   ],
   "note": "False for token 0 (refuted); proved for all other tokens."
  },
  {
   "property": "C65",
   "status": "proved",
   "theorems": [
    "C65_v1_authority"
   ],
   "note": ""
  },
  {
   "property": "C66",
   "status": "proved",
   "theorems": [
    "C66_accepted_executes"
   ],
   "note": ""
  },
  {
   "property": "C67",
   "status": "proved",
   "theorems": [
    "C67_listed_can_be_bought"
   ],
   "note": ""
  },
  {
   "property": "C68",
   "status": "proved",
   "theorems": [
    "C68_settle_live"
   ],
   "note": ""
  },
  {
   "property": "C69",
   "status": "proved",
   "theorems": [
    "C69_cancel_live"
   ],
   "note": ""
  },
  {
   "property": "C70",
   "status": "proved",
   "theorems": [
    "C70_bid_live"
   ],
   "note": ""
  },
  {
   "property": "C71",
   "status": "proved",
   "theorems": [
    "C71_conservation_user",
    "C71_conservation_chain"
   ],
   "note": ""
  },
  {
   "property": "C72",
   "status": "proved",
   "theorems": [
    "C72_begin_block_effect",
    "C72_begin_block_live"
   ],
   "note": ""
  },
  {
   "property": "C73",
   "status": "proved",
   "theorems": [
    "C73_terms_fixed"
   ],
   "note": ""
  },
  {
   "property": "C74",
   "status": "proved",
   "theorems": [
    "C74_auctions_created_by_owner"
   ],
   "note": ""
  },
  {
   "property": "C75",
   "status": "proved",
   "theorems": [
    "C75_v1_withdraw",
    "C75_v1_withdraw_effect",
    "C75_v1_collection_withdraw",
    "C75_v1_collection_withdraw_effect"
   ],
   "note": ""
  },
  {
   "property": "C76",
   "status": "proved",
   "theorems": [
    "C76_v1_sale_effect"
   ],
   "note": ""
  },
  {
   "property": "C77",
   "status": "proved",
   "theorems": [
    "C77_v1_sale_runs"
   ],
   "note": ""
  },
  {
   "property": "C78",
   "status": "proved",
   "theorems": [
    "C78_v1_ask_life",
    "C78_v1_mandate"
   ],
   "note": ""
  },
  {
   "property": "C79",
   "status": "partial",
   "theorems": [
    "C79_v1_own_price_refuted",
    "C79_v1_own_price_partial"
   ],
   "note": "False: refuted (a later owner may reprice an earlier owner's ask). Proved: the price was set by whoever owned the NFT then."
  },
  {
   "property": "C80",
   "status": "partial",
   "theorems": [
    "C80_v1_ask_ends_refuted",
    "C80_v1_ask_ends_partial"
   ],
   "note": "False: refuted (the ask works again when the NFT comes back). Proved: it sells nothing while the seller does not own the NFT."
  },
  {
   "property": "C81",
   "status": "proved",
   "theorems": [
    "C81_v1_settings",
    "C81_v1_valid_settings"
   ],
   "note": ""
  },
  {
   "property": "C82",
   "status": "partial",
   "theorems": [
    "C82_v1_update_operators_refuted",
    "C82_v1_add_operator_partial",
    "C82_v1_remove_operator_partial"
   ],
   "note": "False for UpdateParams (refuted: it ignores operators). Add/RemoveOperator proved exact."
  },
  {
   "property": "C83",
   "status": "partial",
   "theorems": [
    "C83_v1_can_clean_refuted",
    "C83_v1_can_clean_partial",
    "C83_v1_can_clean_collection_partial"
   ],
   "note": "False: refuted (a reward of zero makes the bank reject the transaction). Proved when 0 < reward < price and the receivers are not blocked. C132_clean_exactly: these conditions are necessary too."
  },
  {
   "property": "C84",
   "status": "proved",
   "theorems": [
    "C84_v1_ask_listings",
    "C84_v1_bid_listings",
    "C84_v1_collection_bid_listings"
   ],
   "note": "The two price-sorted collection-bid listings need the stored bidders to be valid addresses, which holds on the chain."
  },
  {
   "property": "C85",
   "status": "proved",
   "theorems": [
    "C85_v1_pages"
   ],
   "note": ""
  },
  {
   "property": "C86",
   "status": "partial",
   "theorems": [
    "C86_v1_reverse_asks_refuted",
    "C86_v1_reverse_asks_partial"
   ],
   "note": "False: refuted (empty without offset). Proved complete when an offset above all tokens is given."
  },
  {
   "property": "C87",
   "status": "partial",
   "theorems": [
    "C87_v1_collections_refuted",
    "C87_v1_collections_partial"
   ],
   "note": "False: refuted (one row per ask). Proved: every collection with asks and no other appears."
  },
  {
   "property": "C88",
   "status": "partial",
   "theorems": [
    "C88_v1_bids_first_page_partial",
    "C88_v1_bids_never_continue",
    "C88_v1_bids_refuted"
   ],
   "note": "False: refuted, and in every history a page asked for with an offset is empty (collection addresses shorter than 256 bytes, offset not beginning with a zero byte). The first page is right."
  },
  {
   "property": "C89",
   "status": "partial",
   "theorems": [
    "C89_v1_expiry_paging_partial",
    "C89_v1_expiry_paging_refuted"
   ],
   "note": "False: refuted when the bid of the offset is gone; then the listing is the one without offset. As long as it rests the page holds exactly the bids expiring after it. Without removals the walk is complete (C84)."
  },
  {
   "property": "C90",
   "status": "proved",
   "theorems": [
    "C90_v1_ask_count"
   ],
   "note": ""
  },
  {
   "property": "C91",
   "status": "proved",
   "theorems": [
    "C91_v1_sale_hook"
   ],
   "note": ""
  },
  {
   "property": "C92",
   "status": "proved",
   "theorems": [
    "C92_v1_governance"
   ],
   "note": ""
  },
  {
   "property": "C93",
   "status": "partial",
   "theorems": [
    "C93_v1_cheap_sale_refuted",
    "C93_v1_cheap_sale_partial"
   ],
   "note": "False if the chain refuses to burn nothing (refuted for that ext, and shown general: no sale with fee zero then). If it accepts, C77 gives success. C132_sell_exactly and C132_buy_exactly say exactly when a sale goes through."
  },
  {
   "property": "C94",
   "status": "proved",
   "theorems": [
    "C94_v1_reject_effect",
    "C94_v1_reject"
   ],
   "note": ""
  },
  {
   "property": "C95",
   "status": "proved",
   "theorems": [
    "C95_v1_keeps_nothing"
   ],
   "note": ""
  },
  {
   "property": "C96",
   "status": "proved",
   "theorems": [
    "C96_rests_as_stated",
    "C96_sale_takes_two_orders"
   ],
   "note": ""
  },
  {
   "property": "C97",
   "status": "proved",
   "theorems": [
    "C97_admin_exact",
    "C97_instantiate_exact"
   ],
   "note": ""
  },
  {
   "property": "C98",
   "status": "proved",
   "theorems": [
    "C98_entry_price"
   ],
   "note": ""
  },
  {
   "property": "C99",
   "status": "proved",
   "theorems": [
    "C99_addresses_valid"
   ],
   "note": ""
  },
  {
   "property": "C100",
   "status": "proved",
   "theorems": [
    "C100_registry_told",
    "C100_only_in_sales"
   ],
   "note": ""
  },
  {
   "property": "C101",
   "status": "proved",
   "theorems": [
    "C101_bid_exact"
   ],
   "note": ""
  },
  {
   "property": "C102",
   "status": "proved",
   "theorems": [
    "C102_create_exact"
   ],
   "note": ""
  },
  {
   "property": "C103",
   "status": "proved",
   "theorems": [
    "C103_governance_exact",
    "C103_instantiate_exact"
   ],
   "note": ""
  },
  {
   "property": "C104",
   "status": "proved",
   "theorems": [
    "C104_window_exact"
   ],
   "note": ""
  },
  {
   "property": "C105",
   "status": "proved",
   "theorems": [
    "C105_min_prices_page",
    "C105_min_prices_walk",
    "C105_auction_query"
   ],
   "note": ""
  },
  {
   "property": "C106",
   "status": "proved",
   "theorems": [
    "C106_v1_listing_calls"
   ],
   "note": ""
  },
  {
   "property": "C107",
   "status": "proved",
   "theorems": [
    "C107_v1_bidding_calls"
   ],
   "note": ""
  },
  {
   "property": "C108",
   "status": "proved",
   "theorems": [
    "C108_v1_answering_calls"
   ],
   "note": ""
  },
  {
   "property": "C109",
   "status": "proved",
   "theorems": [
    "C109_v1_upkeep_calls"
   ],
   "note": ""
  },
  {
   "property": "C110",
   "status": "proved",
   "theorems": [
    "C110_v1_governance_calls",
    "C110_v1_set_up"
   ],
   "note": ""
  },
  {
   "property": "C111",
   "status": "proved",
   "theorems": [
    "C111_v1_lookups"
   ],
   "note": ""
  },
  {
   "property": "C112",
   "status": "proved",
   "theorems": [
    "C112_observer",
    "C112_events_decide",
    "C112_logged",
    "C112_history_logged",
    "C112_start_told"
   ],
   "note": ""
  },
  {
   "property": "C113",
   "status": "proved",
   "theorems": [
    "C113_sale_reported",
    "C113_texts"
   ],
   "note": ""
  },
  {
   "property": "C114",
   "status": "partial",
   "theorems": [
    "C114_observer",
    "C114_events_decide_partial",
    "C114_logged",
    "C114_duration_told_refuted",
    "C114_max_duration_told_refuted"
   ],
   "note": "False of the code for two fields: the duration of an auction without bids and the configuration's max_duration appear in no event (both refuted by pairs of storages with equal logs). C114_observer and C114_events_decide_partial cover everything else. Halt windows are outside the statement."
  },
  {
   "property": "C115",
   "status": "proved",
   "theorems": [
    "C115_settle_told",
    "C115_end_block_told",
    "C115_bid_told",
    "C115_halt_told",
    "C115_texts"
   ],
   "note": ""
  },
  {
   "property": "C116",
   "status": "partial",
   "theorems": [
    "C116_observer",
    "C116_start",
    "C116_logged",
    "C116_events_decide_partial",
    "C116_ask_told_refuted",
    "C116_bid_told_refuted",
    "C116_parameters_told_refuted",
    "C116_set_bid_rests_refuted"
   ],
   "note": "False of the code for the recipient of an ask's proceeds, the finder's fees and the parameter values, which no event tells (refuted by pairs of storages with equal logs), and a set-bid event also ends a purchase although no bid rests (C116_set_bid_rests_refuted). C116_observer, C116_start and C116_events_decide_partial cover all orders, operators and hooks otherwise; the observer reads the events of a call together."
  },
  {
   "property": "C117",
   "status": "partial",
   "theorems": [
    "C117_sale_told",
    "C117_removal_told",
    "C117_sale_type_told_refuted",
    "C117_failed_hook_told"
   ],
   "note": "False of the code for the sale_type attribute of a set-bid event, which is whatever the caller wrote (C117_sale_type_told_refuted); the rest is proved in full."
  },
  {
   "property": "C118",
   "status": "proved",
   "theorems": [
    "C118_v1_ask_pages",
    "C118_v1_bid_pages",
    "C118_v1_collection_bid_pages"
   ],
   "note": ""
  },
  {
   "property": "C119",
   "status": "partial",
   "theorems": [
    "C119_v1_versions_grow",
    "C119_v1_no_return",
    "C119_v1_migrate_exact",
    "C119_v2_migrate_refuted",
    "C119_ra_migrate_refuted",
    "C119_foreign_storage_refuted",
    "C119_v2_ra_migrate_partial"
   ],
   "note": "Proved for marketplace v1 (any semver comparison that is transitive). False of marketplace v2 and the reserve auction, whose migrate writes the record without looking at it: refuted by downgrades and by taking over v1's storage; what remains is that the record names the code and the data are kept."
  },
  {
   "property": "C120",
   "status": "proved",
   "theorems": [
    "C120_ra_stored",
    "C120_ra_writes",
    "C120_ra_reads",
    "C120_ra_due",
    "C120_v1_stored",
    "C120_v1_writes",
    "C120_v1_reads",
    "C120_v2_stored",
    "C120_v2_writes",
    "C120_v2_reads"
   ],
   "note": ""
  },
  {
   "property": "C121",
   "status": "proved",
   "theorems": [
    "C121_order_calls_exact",
    "C121_refused_exactly"
   ],
   "note": ""
  },
  {
   "property": "C122",
   "status": "proved",
   "theorems": [
    "C122_calls_exact",
    "C122_refused_exactly",
    "C122_sudo_exact",
    "C122_end_block_fails_exactly",
    "C122_block_ends_exactly"
   ],
   "note": ""
  },
  {
   "property": "C123",
   "status": "proved",
   "theorems": [
    "C123_bidder_books",
    "C123_won_is_delivered",
    "C123_won_is_paid_out",
    "C123_contract_books",
    "C123_on_chain"
   ],
   "note": ""
  },
  {
   "property": "C124",
   "status": "proved",
   "theorems": [
    "C124_buyer_books",
    "C124_own_purchase",
    "C124_bid_taken",
    "C124_collection_bid_taken",
    "C124_contract_books",
    "C124_on_chain"
   ],
   "note": ""
  },
  {
   "property": "C125",
   "status": "proved",
   "theorems": [
    "C125_buyer_books",
    "C125_own_purchase",
    "C125_bid_left",
    "C125_collection_bid_left",
    "C125_contract_books",
    "C125_on_chain"
   ],
   "note": ""
  },
  {
   "property": "C126",
   "status": "proved",
   "theorems": [
    "C126_depends",
    "C126_changes",
    "C126_exchange",
    "C126_undisturbed"
   ],
   "note": ""
  },
  {
   "property": "C127",
   "status": "partial",
   "theorems": [
    "C127_depends",
    "C127_changes",
    "C127_exchange",
    "C127_undisturbed",
    "C127_end_block_refuted"
   ],
   "note": "Proved for user calls, governance and block beginnings. False at the end of a block, where one auction that cannot be paid out keeps all others from being settled (C127_end_block_refuted)."
  },
  {
   "property": "C128",
   "status": "partial",
   "theorems": [
    "C128_depends",
    "C128_changes",
    "C128_exchange",
    "C128_undisturbed",
    "C128_counter_refuted"
   ],
   "note": "Proved apart from the counter. The last sentence is false: a tie between equal bids goes to the greater id, a hash of the counter that all collections share, so that a bid for another collection can decide who gets an NFT (C128_counter_refuted)."
  },
  {
   "property": "C129",
   "status": "proved",
   "theorems": [
    "C129_stand_in",
    "C129_nothing_else_used",
    "C129_conservation",
    "C129_cheapest",
    "C129_bid_changes",
    "C129_never_reissued",
    "C129_resting_ids",
    "C129_bid_accepted",
    "C129_exact",
    "C129_only_owner_sells",
    "C129_collision_costs"
   ],
   "note": ""
  },
  {
   "property": "C130",
   "status": "proved",
   "theorems": [
    "C130_goes_exactly",
    "C130_order_goes_exactly",
    "C130_books",
    "C130_order_books",
    "C130_sell_exactly",
    "C130_buy_exactly",
    "C130_withdraw_exactly"
   ],
   "note": ""
  },
  {
   "property": "C131",
   "status": "proved",
   "theorems": [
    "C131_goes_exactly",
    "C131_books",
    "C131_sudo_goes_exactly",
    "C131_sudo_books",
    "C131_bid_exactly",
    "C131_cancel_exactly",
    "C131_open_exactly",
    "C131_settle_exactly"
   ],
   "note": ""
  },
  {
   "property": "C132",
   "status": "proved",
   "theorems": [
    "C132_goes_exactly",
    "C132_books",
    "C132_clean_exactly",
    "C132_clean_collection_exactly",
    "C132_withdraw_exactly",
    "C132_sell_exactly",
    "C132_buy_exactly"
   ],
   "note": ""
  },
  {
   "property": "C133",
   "status": "proved",
   "theorems": [
    "C133_no_starvation",
    "C133_front_exists",
    "C133_end_block_exactly",
    "C133_all_settled"
   ],
   "note": ""
  },
  {
   "property": "C134",
   "status": "proved",
   "theorems": [
    "C134_each_as_if_alone",
    "C134_calls_as_if_alone",
    "C134_all_funded",
    "C134_all_in_custody",
    "C134_one_place",
    "C134_goes_among_others"
   ],
   "note": ""
  },
  {
   "property": "C135",
   "status": "partial",
   "theorems": [
    "C135_ra_moves_of_a_call",
    "C135_ra_books",
    "C135_v2_moves_of_a_call",
    "C135_v2_books",
    "C135_v2_never_to_itself_refuted"
   ],
   "note": "Proved for the reserve auction, and for marketplace v2 apart from the last clause: a buyer may name the contract itself as recipient, which then receives an NFT that is not listed (C135_v2_never_to_itself_refuted). Marketplace v1 holds no NFTs."
  },
  {
   "property": "C136",
   "status": "proved",
   "theorems": [
    "C136_ra_surplus",
    "C136_ra_nft",
    "C136_v1_surplus",
    "C136_v1_nft",
    "C136_v2_surplus",
    "C136_v2_nft"
   ],
   "note": ""
  },
  {
   "property": "C137",
   "status": "partial",
   "theorems": [
    "C137_v1_rounding",
    "C137_v1_raise",
    "C137_v1_more_pays_more_refuted",
    "C137_v2_rounding",
    "C137_v2_raise",
    "C137_v2_more_pays_more_refuted"
   ],
   "note": "The bounds are proved. The last clause is false: at a slightly higher price several fees may reach the next unit at once, so that the seller gets up to three units less (C137_v2_more_pays_more_refuted: 500 leaves 465, 501 leaves 462; C137_v1_more_pays_more_refuted: 99 leaves 97, 100 leaves 96); C137_v2_raise and C137_v1_raise prove that it is never more than three."
  },
  {
   "property": "C138",
   "status": "proved",
   "theorems": [
    "C138_growth",
    "C138_few_bids",
    "C138_end",
    "C138_over_by"
   ],
   "note": ""
  },
  {
   "property": "C139",
   "status": "proved",
   "theorems": [
    "C139_ra_user_work",
    "C139_ra_block_work",
    "C139_ra_quiet",
    "C139_v1_work",
    "C139_v2_work"
   ],
   "note": ""
  },
  {
   "property": "C140",
   "status": "proved",
   "theorems": [
    "C140_ra_alike",
    "C140_ra_alike_blocks",
    "C140_v1_alike",
    "C140_v1_alike_governance",
    "C140_v2_alike"
   ],
   "note": ""
  },
  {
   "property": "C141",
   "status": "proved",
   "theorems": [
    "C141_ra_any_order",
    "C141_ra_emptied",
    "C141_v1_any_order",
    "C141_v1_emptied",
    "C141_v2_any_order",
    "C141_v2_emptied"
   ],
   "note": ""
  },
  {
   "property": "C142",
   "status": "proved",
   "theorems": [
    "C142_highest_wins",
    "C142_any_order"
   ],
   "note": ""
  },
  {
   "property": "C143",
   "status": "proved",
   "theorems": [
    "C143_bidding_more_costs_nothing",
    "C143_asking_less_costs_nothing",
    "C143_one_price"
   ],
   "note": ""
  },
  {
   "property": "C144",
   "status": "proved",
   "theorems": [
    "C144_ra_block_as_listed",
    "C144_v2_sell_as_quoted",
    "C144_v2_buy_any_as_quoted",
    "C144_v2_buy_one_as_quoted"
   ],
   "note": ""
  },
  {
   "property": "C145",
   "status": "proved",
   "theorems": [
    "C145_shield",
    "C145_after_halt",
    "C145_window_stays",
    "C145_queue"
   ],
   "note": ""
  },
  {
   "property": "C146",
   "status": "proved",
   "theorems": [
    "C146_buying_accepts",
    "C146_buying_one_way",
    "C146_offering_accepts",
    "C146_repricing_accepts"
   ],
   "note": ""
  },
  {
   "property": "C147",
   "status": "proved",
   "theorems": [
    "C147_end_block_is_settling"
   ],
   "note": ""
  },
  {
   "property": "C148",
   "status": "partial",
   "theorems": [
    "C148_bids_refuted",
    "C148_listings_refuted",
    "C148_bid_ties_partial",
    "C148_collection_bid_ties_partial",
    "C148_listing_ties_partial",
    "C148_listing_order_lost_partial"
   ],
   "note": "False: ties are broken by id, a hash (C148_bids_refuted, C148_listings_refuted). Proved instead, for every hash: of two bids at the same price the one with the greater id is traded, of two listings the one whose NFT has the smaller hash, and the book does not remember which of two NFTs was listed first."
  },
  {
   "property": "C149",
   "status": "partial",
   "theorems": [
    "C149_keeps_settling_refuted",
    "C149_keeps_settling_partial",
    "C149_end_block_effect",
    "C149_histories",
    "C149_calls",
    "C149_privileged_calls",
    "C149_no_difference"
   ],
   "note": "False for limits that are multiples of 2^32 (C149_keeps_settling_refuted: the cast to usize keeps 32 bits, so such a limit settles nothing). Proved for every other limit, with the exact effect for all limits, and that all other theorems carry over to the 32-bit machine (C149_histories, C149_calls, C149_privileged_calls)."
  },
  {
   "property": "C150",
   "status": "proved",
   "theorems": [
    "C150_clock_only_opens",
    "C150_later_same",
    "C150_later_block"
   ],
   "note": ""
  },
  {
   "property": "C151",
   "status": "proved",
   "theorems": [
    "C151_delay_harmless_before_deadline",
    "C151_deadlines"
   ],
   "note": ""
  },
  {
   "property": "C152",
   "status": "proved",
   "theorems": [
    "C152_delay",
    "C152_deadline"
   ],
   "note": ""
  },
  {
   "property": "C153",
   "status": "proved",
   "theorems": [
    "C153_asks_only",
    "C153_answers_suffice",
    "C153_withdrawals_ask_nobody"
   ],
   "note": ""
  },
  {
   "property": "C154",
   "status": "proved",
   "theorems": [
    "C154_asks_only",
    "C154_answers_suffice",
    "C154_withdrawals_ask_nobody"
   ],
   "note": ""
  },
  {
   "property": "C155",
   "status": "proved",
   "theorems": [
    "C155_asks_only",
    "C155_chain_asks_only",
    "C155_bidding_asks_nobody"
   ],
   "note": ""
  },
  {
   "property": "C156",
   "status": "proved",
   "theorems": [
    "C156_bid_again",
    "C156_collection_bid_again",
    "C156_listing_again"
   ],
   "note": ""
  },
  {
   "property": "C157",
   "status": "proved",
   "theorems": [
    "C157_bid_replaced",
    "C157_collection_bid_replaced",
    "C157_listing_replaced"
   ],
   "note": ""
  },
  {
   "property": "C158",
   "status": "proved",
   "theorems": [
    "C158_reopen_same"
   ],
   "note": ""
  },
  {
   "property": "C159",
   "status": "proved",
   "theorems": [
    "C159_used_once"
   ],
   "note": ""
  },
  {
   "property": "C160",
   "status": "proved",
   "theorems": [
    "C160_coins_decide",
    "C160_more_coins",
    "C160_exact_coins"
   ],
   "note": ""
  },
  {
   "property": "C161",
   "status": "proved",
   "theorems": [
    "C161_same_trade"
   ],
   "note": ""
  },
  {
   "property": "C162",
   "status": "proved",
   "theorems": [
    "C162_same_trade"
   ],
   "note": ""
  },
  {
   "property": "C163",
   "status": "proved",
   "theorems": [
    "C163_same_sale"
   ],
   "note": ""
  },
  {
   "property": "C164",
   "status": "proved",
   "theorems": [
    "C164_more_bids",
    "C164_more_listings",
    "C164_other_listings"
   ],
   "note": ""
  },
  {
   "property": "C165",
   "status": "proved",
   "theorems": [
    "C165_one_call",
    "C165_with_fee_manager",
    "C165_no_gain",
    "C165_total_gain"
   ],
   "note": ""
  },
  {
   "property": "C166",
   "status": "proved",
   "theorems": [
    "C166_one_call",
    "C166_no_gain"
   ],
   "note": ""
  },
  {
   "property": "C167",
   "status": "proved",
   "theorems": [
    "C167_one_call",
    "C167_no_gain"
   ],
   "note": ""
  },
  {
   "property": "C168",
   "status": "proved",
   "theorems": [
    "C168_ra_wealth",
    "C168_ra_block",
    "C168_v1_wealth",
    "C168_v2_wealth"
   ],
   "note": ""
  },
  {
   "property": "C169",
   "status": "proved",
   "theorems": [
    "C169_ra_kept",
    "C169_ra_block_kept",
    "C169_ra_bid_for_nft",
    "C169_v1_kept",
    "C169_v1_bid_for_nft",
    "C169_v1_collection_bid_for_nft",
    "C169_v2_kept",
    "C169_v2_bid_for_nft",
    "C169_v2_collection_bid_for_nft"
   ],
   "note": ""
  },
  {
   "property": "C170",
   "status": "proved",
   "theorems": [
    "C170_ra_safe",
    "C170_ra_block_safe",
    "C170_v1_safe",
    "C170_v2_safe"
   ],
   "note": ""
  }
 ]
}
