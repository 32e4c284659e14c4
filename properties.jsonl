{"id": "C01", "title": "Marketplace v2 escrow is always fully funded", "statement": "At every point between transactions, for every denom, the bank balance of the marketplace is at least the sum of the prices of all resting token bids and collection bids in that denom.", "quantifier": "every finite history of transactions by any senders, with any funds, any interleaving of other chain activity, and any re-entrant calls made by non-standard NFT collections while a message to them is being executed, for every denom", "why_tests_cant": "The sum ranges over an unbounded book and arbitrary interleavings (including re-entrancy); a test only sees one book and one schedule.", "anchors": ["contracts/stargaze-marketplace-v2/src/execute.rs:execute_set_bid", "contracts/stargaze-marketplace-v2/src/execute.rs:execute_update_bid", "contracts/stargaze-marketplace-v2/src/execute.rs:execute_accept_bid", "contracts/stargaze-marketplace-v2/src/helpers.rs:finalize_sale", "packages/sg-marketplace-common/src/sale.rs:NftSaleProcessor"]}
{"id": "C02", "title": "Marketplace v2 calls neither keep nor lose coins", "statement": "For every successful call other than AcceptBid, AcceptCollectionBid and the administrative calls, coins attached + escrow released by orders that left the book = coins paid out by the response + escrow of orders that entered the book, for every denom; for the excepted calls the same equation holds without the attached coins.", "quantifier": "every state, sender, attached funds, message and query answers", "why_tests_cant": "The equation must hold for every combination of funds list, prices, fee settings and matching order.", "anchors": ["contracts/stargaze-marketplace-v2/src/execute.rs:execute", "contracts/stargaze-marketplace-v2/src/helpers.rs:finalize_sale"]}
{"id": "C03", "title": "Coins attached to AcceptBid / AcceptCollectionBid / admin calls are rejected or returned", "statement": "A successful call that does not need coins returns (or refuses) all coins attached to it.", "quantifier": "every call and attached funds", "why_tests_cant": "Universal over calls; the test-suite never attaches funds to these messages.", "anchors": ["contracts/stargaze-marketplace-v2/src/execute.rs:execute_accept_bid", "contracts/stargaze-marketplace-v2/src/execute.rs:execute_accept_collection_bid", "contracts/stargaze-marketplace-v2/src/execute.rs:execute_update_config"]}
{"id": "C04", "title": "A listed NFT is always in the marketplace's custody", "statement": "At every point between transactions, for each resting ask on a standards-compliant collection, the NFT named by the ask is owned by the marketplace contract, and no two resting asks name the same NFT.", "quantifier": "every finite history of transactions by any senders, with any funds, any interleaving of other chain activity, and any re-entrant calls made by non-standard NFT collections while a message to them is being executed (assuming the configured royalty registry does not call back)", "why_tests_cant": "Requires an invariant over all histories including hostile collections and other users' approvals/transfers.", "anchors": ["contracts/stargaze-marketplace-v2/src/execute.rs:execute_set_ask", "contracts/stargaze-marketplace-v2/src/execute.rs:execute_remove_ask", "contracts/stargaze-marketplace-v2/src/helpers.rs:finalize_sale", "packages/sg-marketplace-common/src/nft.rs:only_owner", "packages/sg-marketplace-common/src/nft.rs:transfer_nft"]}
{"id": "C05", "title": "The order book is never crossed", "statement": "Between transactions no resting ask can be filled by a resting bid: for each resting ask, every resting token bid on the same NFT and every resting collection bid on the same collection in the same denom has a price strictly below the ask.", "quantifier": "every finite history of transactions by any senders, with any funds, any interleaving of other chain activity, and any re-entrant calls made by non-standard NFT collections while a message to them is being executed", "why_tests_cant": "Must hold for all books produced by any sequence of place / update / accept / remove.", "anchors": ["contracts/stargaze-marketplace-v2/src/orders.rs:Ask::match_with_bid", "contracts/stargaze-marketplace-v2/src/orders.rs:Bid::match_with_ask", "contracts/stargaze-marketplace-v2/src/orders.rs:CollectionBid::match_with_ask"]}
{"id": "C06", "title": "Sale proceeds are split exactly", "statement": "In every sale the coins sent out as protocol fee, maker reward, taker reward, royalty and seller proceeds are all in the sale denom, each is strictly positive and they add up to exactly the sale price.", "quantifier": "every sale price, fee configuration, royalty share and combination of finders", "why_tests_cant": "Rounding must cancel for all 2^128 prices and all fee settings.", "anchors": ["packages/sg-marketplace-common/src/sale.rs:NftSaleProcessor::build_payments", "contracts/stargaze-marketplace-v2/src/helpers.rs:finalize_sale", "contracts/stargaze-marketplace-v2/src/helpers.rs:divide_protocol_fees"]}
{"id": "C07", "title": "Protocol, maker and taker fees follow the published formula", "statement": "With protocol fee f bps, maker reward m bps and taker reward t bps (m, t counted as 0 when the corresponding finder is absent), the fee manager receives ceil(price*f*(10000-m-t)/10^8), the maker's finder ceil(price*f*m/10^8) and the taker's finder ceil(price*f*t/10^8); zero shares produce no payment.", "quantifier": "every valid configuration and price", "why_tests_cant": "Fixed-point rounding has to be exact for every configuration.", "anchors": ["contracts/stargaze-marketplace-v2/src/helpers.rs:divide_protocol_fees", "packages/sg-marketplace-common/src/sale.rs:NftSaleProcessor::build_payments"]}
{"id": "C08", "title": "Royalty payments never exceed the cap", "statement": "The royalty paid in a sale is ceil(price * min(share, max_royalty_bps)) and goes to the recipient in the royalty registry entry (or, if none, in the collection info); it never exceeds ceil(price*max_royalty_bps/10000).", "quantifier": "every registry answer, collection info, price and configuration", "why_tests_cant": "The share comes from an external contract and may be any decimal.", "anchors": ["contracts/stargaze-marketplace-v2/src/helpers.rs:finalize_sale", "packages/sg-marketplace-common/src/royalties.rs:fetch_or_set_royalties"]}
{"id": "C09", "title": "A new or updated ask is filled by the best bid", "statement": "SetAsk/SellNft/UpdateAsk is filled immediately iff some token bid on the NFT or collection bid on the collection in the ask's denom is at least the ask price; it is then filled at the highest such price, with a token bid preferred on a tie; otherwise nothing is sold.", "quantifier": "every book and every ask", "why_tests_cant": "The choice is over an unbounded set of bids sorted by a storage index.", "anchors": ["contracts/stargaze-marketplace-v2/src/orders.rs:Ask::match_with_bid", "contracts/stargaze-marketplace-v2/src/query.rs:query_bids_by_token_price", "contracts/stargaze-marketplace-v2/src/query.rs:query_collection_bids_by_price"]}
{"id": "C10", "title": "A new or updated bid is filled by the cheapest eligible ask at the ask price", "statement": "SetBid/BuySpecificNft/UpdateBid is filled iff the NFT is listed in the bid's denom at a price at most the bid; SetCollectionBid/BuyCollectionNft/UpdateCollectionBid is filled iff some NFT of the collection is listed in that denom at a price at most the bid and then by one with the lowest price; the sale price is the ask price.", "quantifier": "every book and every bid", "why_tests_cant": "Ranges over all books.", "anchors": ["contracts/stargaze-marketplace-v2/src/orders.rs:Bid::match_with_ask", "contracts/stargaze-marketplace-v2/src/orders.rs:CollectionBid::match_with_ask", "contracts/stargaze-marketplace-v2/src/query.rs:query_asks_by_collection_denom"]}
{"id": "C11", "title": "Limit prices are respected", "statement": "No sale charges a buyer more than the price in their order, and no sale executes below the minimum stated by the seller in the message or resting order that they or the buyer trigger (an ask's creator accepting a bid states their own new minimum).", "quantifier": "every state and message", "why_tests_cant": "Ranges over all books and all message kinds.", "anchors": ["contracts/stargaze-marketplace-v2/src/execute.rs:execute_accept_ask", "contracts/stargaze-marketplace-v2/src/execute.rs:execute_accept_bid", "contracts/stargaze-marketplace-v2/src/execute.rs:execute_accept_collection_bid", "contracts/stargaze-marketplace-v2/src/helpers.rs:finalize_sale"]}
{"id": "C12", "title": "Only the creator can change or withdraw an order", "statement": "If a call changes a resting order or removes it without a sale of that order, the sender is its creator; a resting bid that disappears in a call by somebody else was paid out for the NFT it asked for, and a resting ask that disappears in a call by somebody else was sold at no less than its price.", "quantifier": "every state, sender, message (assuming order ids do not collide)", "why_tests_cant": "Universal over senders and states.", "anchors": ["contracts/stargaze-marketplace-v2/src/execute.rs:execute_update_ask", "contracts/stargaze-marketplace-v2/src/execute.rs:execute_remove_ask", "contracts/stargaze-marketplace-v2/src/execute.rs:execute_update_bid", "contracts/stargaze-marketplace-v2/src/execute.rs:execute_remove_bid", "contracts/stargaze-marketplace-v2/src/execute.rs:execute_update_collection_bid", "contracts/stargaze-marketplace-v2/src/execute.rs:execute_remove_collection_bid"]}
{"id": "C13", "title": "A resting bid can always be withdrawn for a full refund", "statement": "In every reachable state the creator of a resting token or collection bid can remove it, the transaction succeeds and their balance grows by exactly the bid price.", "quantifier": "every finite history of transactions by any senders, with any funds, any interleaving of other chain activity, and any re-entrant calls made by non-standard NFT collections while a message to them is being executed, then for every resting bid whose creator may receive coins", "why_tests_cant": "Liveness from every reachable state.", "anchors": ["contracts/stargaze-marketplace-v2/src/execute.rs:execute_remove_bid", "contracts/stargaze-marketplace-v2/src/execute.rs:execute_remove_collection_bid"]}
{"id": "C14", "title": "A listing can always be withdrawn", "statement": "In every reachable state the creator of a resting ask on a standards-compliant collection can remove it and the NFT ends up with the ask's recipient (the creator when none was given).", "quantifier": "every finite history of transactions by any senders, with any funds, any interleaving of other chain activity, and any re-entrant calls made by non-standard NFT collections while a message to them is being executed, then for every resting ask", "why_tests_cant": "Liveness from every reachable state.", "anchors": ["contracts/stargaze-marketplace-v2/src/execute.rs:execute_remove_ask"]}
{"id": "C15", "title": "Bidders are charged exactly", "statement": "When SetBid/UpdateBid/AcceptAsk/collection variants succeed, the sender's net outlay is exactly the sale price when filled, or exactly the (change in) bid price when resting, whatever surplus coins were attached; all surplus is returned in one transfer to the sender.", "quantifier": "every funds list, price and book", "why_tests_cant": "Universal over funds lists with many denoms.", "anchors": ["contracts/stargaze-marketplace-v2/src/execute.rs:execute_set_bid", "contracts/stargaze-marketplace-v2/src/execute.rs:execute_update_bid", "contracts/stargaze-marketplace-v2/src/execute.rs:execute_accept_ask", "contracts/stargaze-marketplace-v2/src/execute.rs:execute_set_collection_bid", "contracts/stargaze-marketplace-v2/src/execute.rs:execute_update_collection_bid"]}
{"id": "C16", "title": "Immediate orders never rest", "statement": "A successful SellNft, BuySpecificNft or BuyCollectionNft performs a sale and adds no order to the book; if there is nothing to match they fail.", "quantifier": "every state and message", "why_tests_cant": "Universal over books.", "anchors": ["contracts/stargaze-marketplace-v2/src/execute.rs:execute_set_ask", "contracts/stargaze-marketplace-v2/src/execute.rs:execute_set_bid", "contracts/stargaze-marketplace-v2/src/execute.rs:execute_set_collection_bid"]}
{"id": "C17", "title": "Fee configuration stays within bounds", "statement": "In every reachable state the protocol fee is below 100% and maker plus taker rewards are below 100% of it.", "quantifier": "every finite history of transactions by any senders, with any funds, any interleaving of other chain activity, and any re-entrant calls made by non-standard NFT collections while a message to them is being executed", "why_tests_cant": "Invariant over all histories.", "anchors": ["contracts/stargaze-marketplace-v2/src/state.rs:Config::save", "contracts/stargaze-marketplace-v2/src/instantiate.rs:instantiate", "contracts/stargaze-marketplace-v2/src/execute.rs:execute_update_config"]}
{"id": "C18", "title": "Only the contract admin can change configuration", "statement": "Configuration, collection denoms and listing fees change only in calls sent by the contract's chain-level admin; if no admin is set they can never change.", "quantifier": "every state, sender and message", "why_tests_cant": "Universal over messages and states.", "anchors": ["contracts/stargaze-marketplace-v2/src/helpers.rs:only_contract_admin", "contracts/stargaze-marketplace-v2/src/execute.rs:execute_update_config", "contracts/stargaze-marketplace-v2/src/execute.rs:execute_update_collection_denom", "contracts/stargaze-marketplace-v2/src/execute.rs:execute_set_listing_fee", "contracts/stargaze-marketplace-v2/src/execute.rs:execute_remove_listing_fee"]}
{"id": "C19", "title": "Administrative calls never touch orders or escrow", "statement": "UpdateConfig, UpdateCollectionDenom, SetListingFee and RemoveListingFee leave every resting order unchanged and send no coins or NFTs.", "quantifier": "every state and administrative message", "why_tests_cant": "Universal over states.", "anchors": ["contracts/stargaze-marketplace-v2/src/execute.rs:execute_update_config", "contracts/stargaze-marketplace-v2/src/execute.rs:execute_update_collection_denom"]}
{"id": "C20", "title": "The listing fee is charged exactly and forwarded", "statement": "A successful SetAsk/SellNft has exactly one coin attached whose amount is exactly the listing fee configured for its denom, and that coin is sent to the fee manager; without a configured nonzero fee in the offered denom listing is impossible.", "quantifier": "every state and funds list", "why_tests_cant": "Universal over funds and fee tables.", "anchors": ["contracts/stargaze-marketplace-v2/src/execute.rs:execute_set_ask"]}
{"id": "C21", "title": "Every resting order has a positive price", "statement": "In every reachable state all resting asks, bids and collection bids have price > 0.", "quantifier": "every finite history of transactions by any senders, with any funds, any interleaving of other chain activity, and any re-entrant calls made by non-standard NFT collections while a message to them is being executed", "why_tests_cant": "Invariant over all histories.", "anchors": ["contracts/stargaze-marketplace-v2/src/helpers.rs:only_valid_price"]}
{"id": "C22", "title": "Bids are never overwritten and new bids get fresh ids", "statement": "Placing a bid never alters another resting bid; with a collision-free hash and fewer than 2^64 bid-creating calls every new bid or collection bid gets an id different from every id ever issued, so placing a bid never fails because of an id clash.", "quantifier": "every finite history of transactions by any senders, with any funds, any interleaving of other chain activity, and any re-entrant calls made by non-standard NFT collections while a message to them is being executed", "why_tests_cant": "Ranges over all histories and the concatenated-bytes id derivation.", "anchors": ["contracts/stargaze-marketplace-v2/src/helpers.rs:generate_id", "contracts/stargaze-marketplace-v2/src/orders.rs:Bid::new", "contracts/stargaze-marketplace-v2/src/orders.rs:CollectionBid::new", "contracts/stargaze-marketplace-v2/src/execute.rs:execute_set_bid"]}
{"id": "C23", "title": "Distinct NFTs have distinct ask ids", "statement": "Two different (collection, token id) pairs never share an ask id.", "quantifier": "all pairs of collections and token ids, every hash function", "why_tests_cant": "The id is a hash of an unseparated concatenation; uniqueness depends on all address pairs.", "anchors": ["contracts/stargaze-marketplace-v2/src/orders.rs:Ask::new", "contracts/stargaze-marketplace-v2/src/helpers.rs:generate_id"]}
{"id": "C24", "title": "Trading is impossible before a collection's trading start time", "statement": "(a) SetAsk, SellNft, SetBid, BuySpecificNft, SetCollectionBid, BuyCollectionNft fail before the collection's start trading time. (b) No call at all sells an NFT of a collection before that time.", "quantifier": "every state, time and message", "why_tests_cant": "Universal over call kinds and times.", "anchors": ["packages/sg-marketplace-common/src/nft.rs:only_tradable", "contracts/stargaze-marketplace-v2/src/execute.rs:execute_accept_ask", "contracts/stargaze-marketplace-v2/src/execute.rs:execute_accept_bid", "contracts/stargaze-marketplace-v2/src/execute.rs:execute_update_ask"]}
{"id": "C25", "title": "Price-ordered queries are sorted, complete and pageable", "statement": "AsksByCollectionDenom, BidsByTokenPrice and CollectionBidsByPrice return only matching resting orders, in (price, id) order, and walking pages with an exclusive bound on the last (price, id) visits every matching order exactly once.", "quantifier": "every book, page size, direction", "why_tests_cant": "Ranges over all books and page sizes.", "anchors": ["contracts/stargaze-marketplace-v2/src/query.rs:query_asks_by_collection_denom", "contracts/stargaze-marketplace-v2/src/query.rs:query_bids_by_token_price", "contracts/stargaze-marketplace-v2/src/query.rs:query_collection_bids_by_price"]}
{"id": "C26", "title": "Creator queries list exactly the creator's orders", "statement": "The *ByCreatorCollection queries return only resting orders of that creator in that collection, ordered by id, each at most once, and paging with an exclusive id bound visits all of them.", "quantifier": "every book, page size, direction", "why_tests_cant": "Ranges over all books.", "anchors": ["contracts/stargaze-marketplace-v2/src/query.rs:query_asks_by_creator_collection", "contracts/stargaze-marketplace-v2/src/query.rs:query_bids_by_creator_collection", "contracts/stargaze-marketplace-v2/src/query.rs:query_collection_bids_by_creator_collection"]}
{"id": "C27", "title": "Lookups by id are faithful", "statement": "Querying a list of ids returns exactly the resting orders with those ids, in the order asked, each carrying the id it was asked by.", "quantifier": "every reachable book and id list", "why_tests_cant": "Needs the storage-key invariant for all histories.", "anchors": ["contracts/stargaze-marketplace-v2/src/query.rs:query_asks", "contracts/stargaze-marketplace-v2/src/query.rs:query_bids", "contracts/stargaze-marketplace-v2/src/query.rs:query_collection_bids"]}
{"id": "C28", "title": "A sale succeeds whenever fees leave room", "statement": "If protocol fee plus capped royalty is at most 100% minus a margin and the price covers the rounding (price*margin >= number of fees), building the payments succeeds, so a matched order cannot fail because of fee arithmetic.", "quantifier": "every price, configuration and share below u128 limits", "why_tests_cant": "Arithmetic over all prices.", "anchors": ["packages/sg-marketplace-common/src/sale.rs:NftSaleProcessor::build_payments", "contracts/stargaze-marketplace-v2/src/helpers.rs:finalize_sale"]}
{"id": "C29", "title": "A seller can always sell into the best resting bid", "statement": "If a resting bid is at or above the ask price, an otherwise valid SetAsk/SellNft by the NFT owner succeeds.", "quantifier": "every reachable state and ask", "why_tests_cant": "Liveness over all books, including adversarial bids.", "anchors": ["contracts/stargaze-marketplace-v2/src/execute.rs:execute_set_ask", "contracts/stargaze-marketplace-v2/src/helpers.rs:finalize_sale"]}
{"id": "C30", "title": "Delivery versus payment", "statement": "Whenever a token bid or collection bid leaves the book other than by its creator's removal, the same response transfers an NFT of the bid's collection (and token) to the bid's recipient (its creator when none was given), and the seller's recipient is paid in the same response.", "quantifier": "every state and message", "why_tests_cant": "Universal over books and call kinds.", "anchors": ["contracts/stargaze-marketplace-v2/src/helpers.rs:finalize_sale", "contracts/stargaze-marketplace-v2/src/orders.rs:Bid::asset_recipient", "contracts/stargaze-marketplace-v2/src/orders.rs:Ask::asset_recipient"]}
{"id": "C31", "title": "Order identity is immutable", "statement": "Updating an order never changes its id, creator, collection or token; only price, recipient and finder.", "quantifier": "every state and message", "why_tests_cant": "Universal over histories.", "anchors": ["contracts/stargaze-marketplace-v2/src/execute.rs:execute_update_ask", "contracts/stargaze-marketplace-v2/src/execute.rs:execute_update_bid", "contracts/stargaze-marketplace-v2/src/execute.rs:execute_update_collection_bid"]}
{"id": "C32", "title": "The recipient and finder given when accepting a bid are honoured", "statement": "When a seller accepts a bid or collection bid naming a recipient or finder, the proceeds go to that recipient and the reward to that finder.", "quantifier": "every state and AcceptBid/AcceptCollectionBid message", "why_tests_cant": "Depends on whether an ask happens to exist.", "anchors": ["contracts/stargaze-marketplace-v2/src/execute.rs:execute_accept_bid", "contracts/stargaze-marketplace-v2/src/execute.rs:execute_accept_collection_bid"]}
{"id": "C33", "title": "Only the owner can list or sell an unlisted NFT", "statement": "For a standards-compliant collection, a SetAsk/SellNft, or an AcceptBid/AcceptCollectionBid on an unlisted NFT, that succeeds was sent by the NFT's current owner, and the owner had approved the marketplace.", "quantifier": "every chain state, sender and message", "why_tests_cant": "Ranges over ledger states.", "anchors": ["packages/sg-marketplace-common/src/nft.rs:only_owner", "contracts/stargaze-marketplace-v2/src/execute.rs:execute_set_ask", "contracts/stargaze-marketplace-v2/src/execute.rs:execute_accept_bid"]}
{"id": "C34", "title": "Auction escrow is always fully funded", "statement": "Between transactions and blocks, for every denom, the auction contract's balance is at least the sum of the current high bids of all open auctions in that denom.", "quantifier": "every finite history of transactions by any senders, with any funds, any interleaving of other chain activity, and any re-entrant calls made by non-standard NFT collections while a message to them is being executed, with begin/end-block processing and governance calls interleaved", "why_tests_cant": "Unbounded set of auctions and histories.", "anchors": ["contracts/reserve-auction/src/execute.rs:execute_place_bid", "contracts/reserve-auction/src/helpers.rs:settle_auction", "contracts/reserve-auction/src/sudo.rs:sudo_end_block"]}
{"id": "C35", "title": "An auctioned NFT is always in the contract's custody", "statement": "Between transactions, for each open auction on a standards-compliant collection the NFT is owned by the auction contract; there is at most one auction per NFT.", "quantifier": "every finite history of transactions by any senders, with any funds, any interleaving of other chain activity, and any re-entrant calls made by non-standard NFT collections while a message to them is being executed", "why_tests_cant": "Invariant over all histories.", "anchors": ["contracts/reserve-auction/src/execute.rs:execute_create_auction", "contracts/reserve-auction/src/execute.rs:execute_cancel_auction", "contracts/reserve-auction/src/helpers.rs:only_no_auction", "contracts/reserve-auction/src/helpers.rs:settle_auction"]}
{"id": "C36", "title": "Each accepted bid beats the previous one by the configured increment", "statement": "A successful bid is at least the reserve price when first, otherwise at least the previous bid plus ceil(previous*min_bid_increment); with a positive increment every bid is strictly higher than the one before and is in the reserve denom.", "quantifier": "every auction state, bid and configuration", "why_tests_cant": "Fixed-point rounding over all amounts.", "anchors": ["contracts/reserve-auction/src/execute.rs:execute_place_bid", "contracts/reserve-auction/src/state.rs:HighBid", "contracts/reserve-auction/src/state.rs:Auction"]}
{"id": "C37", "title": "An outbid bidder is refunded exactly and at once", "statement": "A successful bid on an auction with a high bid sends exactly that bid's coin back to its bidder in the same transaction, and the new bid's coin is kept in escrow.", "quantifier": "every auction state and bid", "why_tests_cant": "Universal over states.", "anchors": ["contracts/reserve-auction/src/execute.rs:execute_place_bid"]}
{"id": "C38", "title": "Auction phases are consistent", "statement": "In every reachable state an auction's first-bid time, end time and high bid are either all unset or all set, and when set the end time is not before the first-bid time.", "quantifier": "every finite history of transactions by any senders, with any funds, any interleaving of other chain activity, and any re-entrant calls made by non-standard NFT collections while a message to them is being executed", "why_tests_cant": "Invariant over histories.", "anchors": ["contracts/reserve-auction/src/execute.rs:execute_create_auction", "contracts/reserve-auction/src/execute.rs:execute_place_bid", "contracts/reserve-auction/src/state.rs:Auction"]}
{"id": "C39", "title": "Bidding never shortens an auction", "statement": "A bid never moves the end time earlier; the first bid sets it to now + duration; a later bid with less than the extension remaining moves it to at least now + extension; every accepted bid leaves at least (roughly) the extension period for others.", "quantifier": "every auction state and time", "why_tests_cant": "Universal over times.", "anchors": ["contracts/reserve-auction/src/execute.rs:execute_place_bid"]}
{"id": "C40", "title": "Only before the first bid, and only by the seller, can an auction be cancelled or repriced", "statement": "CancelAuction and UpdateReservePrice succeed only when sent by the seller while there is no bid; cancelling returns the NFT to the seller.", "quantifier": "every state and sender", "why_tests_cant": "Universal.", "anchors": ["contracts/reserve-auction/src/execute.rs:execute_cancel_auction", "contracts/reserve-auction/src/execute.rs:execute_update_reserve_price"]}
{"id": "C41", "title": "Sellers cannot bid on their own auction", "statement": "In every reachable state no auction's high bidder is its seller.", "quantifier": "every finite history of transactions by any senders, with any funds, any interleaving of other chain activity, and any re-entrant calls made by non-standard NFT collections while a message to them is being executed", "why_tests_cant": "Invariant over histories.", "anchors": ["contracts/reserve-auction/src/execute.rs:execute_place_bid"]}
{"id": "C42", "title": "No settlement before the end, no bid after it", "statement": "Settlement of an auction happens only at or after its end time, and no bid is accepted once the end time's second has been reached.", "quantifier": "every state and time", "why_tests_cant": "Universal over times.", "anchors": ["contracts/reserve-auction/src/helpers.rs:settle_auction", "contracts/reserve-auction/src/execute.rs:execute_place_bid"]}
{"id": "C43", "title": "Settlement pays out exactly the winning bid and delivers the NFT once", "statement": "A settlement removes the auction, sends the NFT to the high bidder, and pays out coins totalling exactly the high bid; a settled auction cannot be settled again.", "quantifier": "every state", "why_tests_cant": "Universal over states.", "anchors": ["contracts/reserve-auction/src/helpers.rs:settle_auction"]}
{"id": "C44", "title": "Auctions that end during a chain halt are postponed, not settled", "statement": "If an auction's end second lies strictly inside a recorded halt window, settling it moves its end to now + postpone duration and moves no coins or NFT.", "quantifier": "every halt history", "why_tests_cant": "Universal over halt windows.", "anchors": ["contracts/reserve-auction/src/helpers.rs:settle_auction", "contracts/reserve-auction/src/sudo.rs:sudo_begin_block", "contracts/reserve-auction/src/state.rs:HaltManager"]}
{"id": "C45", "title": "End-block processing settles due auctions and does not fail", "statement": "EndBlock succeeds in every reachable state and settles or postpones the due auctions up to the limit.", "quantifier": "every finite history of transactions by any senders, with any funds, any interleaving of other chain activity, and any re-entrant calls made by non-standard NFT collections while a message to them is being executed", "why_tests_cant": "Depends on sub-second time relations over all histories.", "anchors": ["contracts/reserve-auction/src/sudo.rs:sudo_end_block", "contracts/reserve-auction/src/helpers.rs:settle_auction", "contracts/reserve-auction/src/state.rs:auctions"]}
{"id": "C46", "title": "One bad auction cannot block the settlement of others", "statement": "If EndBlock would succeed for a set of auctions, adding an auction on a misbehaving collection does not stop them from being settled.", "quantifier": "every set of auctions", "why_tests_cant": "Adversarial collections are universally quantified.", "anchors": ["contracts/reserve-auction/src/sudo.rs:sudo_end_block"]}
{"id": "C47", "title": "Halt protection survives until the affected auctions are processed", "statement": "A halt window recorded in BeginBlock stays effective until every auction that ended inside it has been processed.", "quantifier": "every finite history of transactions by any senders, with any funds, any interleaving of other chain activity, and any re-entrant calls made by non-standard NFT collections while a message to them is being executed", "why_tests_cant": "Depends on interleaving of begin/end block and settlements.", "anchors": ["contracts/reserve-auction/src/sudo.rs:sudo_begin_block", "contracts/reserve-auction/src/sudo.rs:sudo_end_block", "contracts/reserve-auction/src/state.rs:HaltManager"]}
{"id": "C48", "title": "The auction creation fee is charged exactly", "statement": "A successful CreateAuction burns exactly the creation fee and keeps nothing else of the attached coins.", "quantifier": "every funds list", "why_tests_cant": "Universal over funds.", "anchors": ["contracts/reserve-auction/src/execute.rs:execute_create_auction"]}
{"id": "C49", "title": "Auction configuration stays valid", "statement": "In every reachable state 0 < min bid increment < 1, min duration > 0 and extend duration > 0, and only governance (sudo) changes configuration.", "quantifier": "every finite history of transactions by any senders, with any funds, any interleaving of other chain activity, and any re-entrant calls made by non-standard NFT collections while a message to them is being executed", "why_tests_cant": "Invariant over histories.", "anchors": ["contracts/reserve-auction/src/state.rs:Config::validate", "contracts/reserve-auction/src/sudo.rs:sudo_update_params", "contracts/reserve-auction/src/instantiate.rs:instantiate"]}
{"id": "C50", "title": "Every auction's reserve price was allowed when set", "statement": "Creating or repricing an auction succeeds only with a denom that has a governance-set minimum and an amount at least that minimum; the duration lies within the configured limits.", "quantifier": "every state and message", "why_tests_cant": "Universal.", "anchors": ["contracts/reserve-auction/src/helpers.rs:validate_reserve_price", "contracts/reserve-auction/src/execute.rs:execute_create_auction", "contracts/reserve-auction/src/execute.rs:execute_update_reserve_price"]}
{"id": "C51", "title": "Auction queries are sorted, complete and pageable", "statement": "AuctionsBySeller and AuctionsByEndTime return only matching auctions in key order, within the limit, and paging from the last entry visits each exactly once.", "quantifier": "every state and page size", "why_tests_cant": "Ranges over all states.", "anchors": ["contracts/reserve-auction/src/query.rs:query_auctions_by_seller", "contracts/reserve-auction/src/query.rs:query_auctions_by_end_time"]}
{"id": "C52", "title": "Marketplace v1 escrow is always fully funded", "statement": "Between transactions the v1 marketplace's balance of the native denom is at least the sum of all resting bids and collection bids.", "quantifier": "every finite history of transactions by any senders, with any funds, any interleaving of other chain activity, and any re-entrant calls made by non-standard NFT collections while a message to them is being executed, with hooks that may call back", "why_tests_cant": "Unbounded book and histories.", "anchors": ["contracts/marketplace/src/execute.rs:execute_set_bid", "contracts/marketplace/src/execute.rs:execute_remove_bid", "contracts/marketplace/src/execute.rs:execute_accept_bid", "contracts/marketplace/src/execute.rs:payout"]}
{"id": "C53", "title": "v1 sale payouts never exceed the price and leave at most one unit of dust", "statement": "In a v1 sale the network fee, finder's fee, royalty and seller proceeds add up to the price or to one unit less than it.", "quantifier": "every price, fee and royalty share", "why_tests_cant": "Double rounding over all amounts.", "anchors": ["contracts/marketplace/src/execute.rs:payout"]}
{"id": "C54", "title": "v1 keeps at most one bid per bidder and refunds the replaced one", "statement": "A bidder has at most one resting bid per NFT and one per collection; placing another refunds the previous one in full in the same transaction.", "quantifier": "every finite history of transactions by any senders, with any funds, any interleaving of other chain activity, and any re-entrant calls made by non-standard NFT collections while a message to them is being executed", "why_tests_cant": "Invariant over histories.", "anchors": ["contracts/marketplace/src/execute.rs:execute_set_bid", "contracts/marketplace/src/execute.rs:execute_set_collection_bid"]}
{"id": "C55", "title": "v1 fixed-price sales only execute for the seller who still owns the NFT", "statement": "A bid that buys a fixed-price ask succeeds only if the ask is active, unexpired, the price equals the ask price, and the NFT is still owned by the ask's seller; the seller's chosen recipient gets the proceeds.", "quantifier": "every ledger state and ask", "why_tests_cant": "NFTs are not escrowed in v1, so ownership may change arbitrarily between listing and sale.", "anchors": ["contracts/marketplace/src/execute.rs:execute_set_bid", "contracts/marketplace/src/execute.rs:finalize_sale"]}
{"id": "C56", "title": "v1 reserved asks are only sold to the reserved buyer", "statement": "An ask reserved for a buyer can be bought via SetBid/BuyNow only by that buyer.", "quantifier": "every state and sender", "why_tests_cant": "Universal.", "anchors": ["contracts/marketplace/src/execute.rs:execute_set_bid"]}
{"id": "C57", "title": "v1 expired orders do not trade", "statement": "An expired bid or collection bid cannot be accepted and an expired or inactive ask cannot be bought or bid on.", "quantifier": "every state and time", "why_tests_cant": "Universal over times.", "anchors": ["contracts/marketplace/src/execute.rs:execute_accept_bid", "contracts/marketplace/src/execute.rs:execute_accept_collection_bid", "contracts/marketplace/src/execute.rs:execute_set_bid", "contracts/marketplace/src/state.rs:Order"]}
{"id": "C58", "title": "v1 bids leave the book only in sanctioned ways", "statement": "A resting bid disappears only because its bidder removed or replaced it, the NFT owner accepted or rejected it, or an operator removed it after expiry plus the stale period; it is always either refunded to the bidder (minus the operator reward) or paid out in a sale delivering the NFT to the bidder.", "quantifier": "every state, sender and message", "why_tests_cant": "Universal.", "anchors": ["contracts/marketplace/src/execute.rs:execute_remove_bid", "contracts/marketplace/src/execute.rs:execute_reject_bid", "contracts/marketplace/src/execute.rs:execute_remove_stale_bid", "contracts/marketplace/src/execute.rs:execute_accept_bid"]}
{"id": "C59", "title": "v1 stale-bid clean-up conserves the bid", "statement": "When an operator removes a stale bid, the bidder's refund plus the operator's reward equal the bid price and the reward is the configured percentage rounded down.", "quantifier": "every price and percentage", "why_tests_cant": "Rounding over all amounts.", "anchors": ["contracts/marketplace/src/execute.rs:execute_remove_stale_bid", "contracts/marketplace/src/execute.rs:execute_remove_stale_collection_bid"]}
{"id": "C60", "title": "v1 order limits are enforced on entry", "statement": "Every resting bid was at least the minimum price, with finder's fee within the maximum and an expiry inside the configured window at the time it was placed; every ask likewise.", "quantifier": "every state and message", "why_tests_cant": "Universal.", "anchors": ["contracts/marketplace/src/execute.rs:execute_set_ask", "contracts/marketplace/src/execute.rs:execute_set_bid", "contracts/marketplace/src/execute.rs:execute_set_collection_bid", "contracts/marketplace/src/helpers.rs:ExpiryRange"]}
{"id": "C61", "title": "v1 BuyNow buys or fails", "statement": "A successful BuyNow transfers the NFT to the sender and leaves no resting bid.", "quantifier": "every state", "why_tests_cant": "Depends on the ask found in the book.", "anchors": ["contracts/marketplace/src/execute.rs:execute_set_bid"]}
{"id": "C62", "title": "v1 ask prices never exceed the maximum", "statement": "No ask's price ever exceeds the maximum fixed-price ask amount.", "quantifier": "every finite history of transactions by any senders, with any funds, any interleaving of other chain activity, and any re-entrant calls made by non-standard NFT collections while a message to them is being executed", "why_tests_cant": "Invariant over histories, including price updates.", "anchors": ["contracts/marketplace/src/execute.rs:execute_set_ask", "contracts/marketplace/src/execute.rs:execute_update_ask_price"]}
{"id": "C63", "title": "v1 hooks cannot block trading", "statement": "A failing hook contract never reverts the marketplace call that triggered it.", "quantifier": "every hook behaviour", "why_tests_cant": "Hooks are arbitrary contracts.", "anchors": ["contracts/marketplace/src/execute.rs:prepare_ask_hook", "contracts/marketplace/src/execute.rs:reply"]}
{"id": "C64", "title": "v1 list queries return every order", "statement": "Walking the Asks query of a collection page by page visits every ask exactly once.", "quantifier": "every book", "why_tests_cant": "Ranges over all books including boundary token ids.", "anchors": ["contracts/marketplace/src/query.rs:query_asks"]}
{"id": "C65", "title": "v1 privileged operations are restricted", "statement": "SyncAsk, RemoveStaleAsk, RemoveStaleBid and RemoveStaleCollectionBid succeed only for configured operators; SetAsk, RemoveAsk, UpdateAskPrice, AcceptBid, AcceptCollectionBid and RejectBid only for the NFT's current owner.", "quantifier": "every state, sender and message", "why_tests_cant": "Universal.", "anchors": ["contracts/marketplace/src/execute.rs:only_operator", "contracts/marketplace/src/execute.rs:only_owner"]}
{"id": "C66", "title": "What marketplace v2 accepts, the chain executes", "statement": "In every reachable state, if the contract's handler accepts a call whose coins the sender holds, then the whole transaction succeeds and every NFT transfer in the response takes effect, unless some recipient of coins is barred by the bank module or the NFT contract refuses the transfer.", "quantifier": "all reachable worlds, all senders, coins and messages", "why_tests_cant": "Depends on the escrow invariant over every history and on every response never containing an empty or zero bank send.", "anchors": ["contracts/stargaze-marketplace-v2/src/execute.rs", "contracts/stargaze-marketplace-v2/src/helpers.rs"]}
{"id": "C67", "title": "A listed NFT can be bought at its price", "statement": "In every reachable state, anybody holding the price can AcceptAsk a listing in a standards-compliant collection with exactly that price attached and the NFT is delivered to their recipient, provided the royalty registry answers, fees leave room and no payment recipient is barred.", "quantifier": "all reachable worlds, listings, buyers, recipients and finders", "why_tests_cant": "Needs custody and solvency in every reachable state and fee arithmetic for every price.", "anchors": ["contracts/stargaze-marketplace-v2/src/execute.rs"]}
{"id": "C68", "title": "An ended auction can be settled by anyone", "statement": "In every reachable state, once an auction on a standards-compliant collection is over and its proceeds can be split and received (or it ended in a halt window), any sender can settle it without funds.", "quantifier": "all reachable worlds, auctions and senders", "why_tests_cant": "Needs custody and solvency in every reachable state.", "anchors": ["contracts/reserve-auction/src/execute.rs", "contracts/reserve-auction/src/helpers.rs"]}
{"id": "C69", "title": "A seller can always cancel before the first bid", "statement": "In every reachable state the seller of an auction without bids on a standards-compliant collection can cancel it, and gets the NFT back.", "quantifier": "all reachable worlds and auctions", "why_tests_cant": "Needs the custody invariant for every reachable state.", "anchors": ["contracts/reserve-auction/src/execute.rs"]}
{"id": "C70", "title": "A high enough bid on an open auction is accepted", "statement": "In every reachable state, a sender other than the seller holding at least the minimum next bid can place it while the auction is open, provided the previous bidder can receive coins and times do not overflow.", "quantifier": "all reachable worlds, auctions, bidders and amounts", "why_tests_cant": "Needs solvency for the refund and the rounding of the minimum bid for every amount.", "anchors": ["contracts/reserve-auction/src/execute.rs", "contracts/reserve-auction/src/state.rs"]}
{"id": "C71", "title": "The auction contract neither creates nor loses coins", "statement": "For every call, the open high bids afterwards plus the coins sent out equal the open high bids before plus the attached coins (at most, for CreateAuction); privileged calls pay out exactly what they release.", "quantifier": "every finite history of transactions by any senders with any funds, governance calls and begin/end-block processing interleaved, including re-entrant calls", "why_tests_cant": "Sums over unboundedly many auctions and all denoms.", "anchors": ["contracts/reserve-auction/src/execute.rs", "contracts/reserve-auction/src/sudo.rs", "contracts/reserve-auction/src/helpers.rs"]}
{"id": "C72", "title": "BeginBlock records exactly the halts and does not fail", "statement": "BeginBlock appends the window from the previous block's second to now plus buffer exactly when at least the threshold has passed, changes no auction, and succeeds in every reachable state barring u64 overflow.", "quantifier": "all reachable worlds and block times", "why_tests_cant": "Quantifies over all block time sequences.", "anchors": ["contracts/reserve-auction/src/sudo.rs", "contracts/reserve-auction/src/state.rs"]}
{"id": "C73", "title": "The terms of an auction are fixed", "statement": "No call changes an auction's NFT, seller, duration or funds recipient; after the first bid the reserve price and the first-bid time are fixed too.", "quantifier": "every finite history of transactions by any senders with any funds, governance calls and begin/end-block processing interleaved, including re-entrant calls", "why_tests_cant": "Needs case analysis of every call in every state.", "anchors": ["contracts/reserve-auction/src/execute.rs", "contracts/reserve-auction/src/helpers.rs"]}
{"id": "C74", "title": "Auctions appear only when the owner creates them", "statement": "A new auction appears only by a successful CreateAuction of the NFT's owner, with exactly the terms of that message and no bid.", "quantifier": "every finite history of transactions by any senders with any funds, governance calls and begin/end-block processing interleaved, including re-entrant calls", "why_tests_cant": "Needs case analysis of every call in every state.", "anchors": ["contracts/reserve-auction/src/execute.rs"]}
{"id": "C75", "title": "v1 bidders can always withdraw", "statement": "A bidder who may receive coins can remove their bid or collection bid at any time, whatever the hooks do, and gets exactly its price back; nothing else changes.", "quantifier": "every finite history of transactions by any senders with any funds and governance calls, any answers of NFT contracts and any hook contracts", "why_tests_cant": "Ranges over all states and histories; a test sees one book.", "anchors": ["contracts/marketplace/src/execute.rs"]}
{"id": "C76", "title": "v1 sales have exactly the agreed effect", "statement": "A successful sale moves exactly the NFT to the buyer (or the named recipient), pays fee, finder, royalty and seller exactly the split, changes no other balance or NFT, and removes the ask.", "quantifier": "every finite history of transactions by any senders with any funds and governance calls, any answers of NFT contracts and any hook contracts", "why_tests_cant": "Ranges over all states and histories; a test sees one book.", "anchors": ["contracts/marketplace/src/execute.rs"]}
{"id": "C77", "title": "v1 sales that meet the conditions go through", "statement": "If the conditions of a sale hold, every part of the price can be received and the marketplace may transfer the NFT, the transaction succeeds, whatever the hooks do.", "quantifier": "every finite history of transactions by any senders with any funds and governance calls, any answers of NFT contracts and any hook contracts", "why_tests_cant": "Ranges over all states and histories; a test sees one book.", "anchors": ["contracts/marketplace/src/execute.rs"]}
{"id": "C78", "title": "v1 asks change only in sanctioned ways and NFTs move only with a mandate", "statement": "An ask changes only by the NFT owner, an operator or a purchase; an NFT is moved only on the owner's acceptance of a live bid or the purchase of a live ask of the owner at its price.", "quantifier": "every finite history of transactions by any senders with any funds and governance calls, any answers of NFT contracts and any hook contracts", "why_tests_cant": "Ranges over all states and histories; a test sees one book.", "anchors": ["contracts/marketplace/src/execute.rs"]}
{"id": "C79", "title": "v1 ask prices are set by the seller", "statement": "The price of an ask was set by its seller.", "quantifier": "every finite history of transactions by any senders with any funds and governance calls, any answers of NFT contracts and any hook contracts", "why_tests_cant": "Ranges over all states and histories; a test sees one book.", "anchors": ["contracts/marketplace/src/execute.rs"]}
{"id": "C80", "title": "v1 asks end when the NFT leaves the seller", "statement": "After the seller has transferred a listed NFT away, the ask cannot lead to a sale any more.", "quantifier": "every finite history of transactions by any senders with any funds and governance calls, any answers of NFT contracts and any hook contracts", "why_tests_cant": "Ranges over all states and histories; a test sees one book.", "anchors": ["contracts/marketplace/src/execute.rs"]}
{"id": "C81", "title": "v1 users cannot change settings and settings stay valid", "statement": "No user call changes parameters or hook lists; fee rates stay within 100%, windows are ordered, operators and hooks are listed once.", "quantifier": "every finite history of transactions by any senders with any funds and governance calls, any answers of NFT contracts and any hook contracts", "why_tests_cant": "Ranges over all states and histories; a test sees one book.", "anchors": ["contracts/marketplace/src/execute.rs"]}
{"id": "C82", "title": "v1 governance sets the operators", "statement": "UpdateParams with a list of operators installs that list; AddOperator and RemoveOperator change exactly the named operator.", "quantifier": "every finite history of transactions by any senders with any funds and governance calls, any answers of NFT contracts and any hook contracts", "why_tests_cant": "Ranges over all states and histories; a test sees one book.", "anchors": ["contracts/marketplace/src/sudo.rs"]}
{"id": "C83", "title": "v1 operators can always remove stale bids", "statement": "Every stale bid can be removed by an operator.", "quantifier": "every finite history of transactions by any senders with any funds and governance calls, any answers of NFT contracts and any hook contracts", "why_tests_cant": "Ranges over all states and histories; a test sees one book.", "anchors": ["contracts/marketplace/src/execute.rs"]}
{"id": "C84", "title": "v1 ordered listings are complete", "statement": "Walking any of the sorted ask, bid and collection-bid listings page by page visits exactly the matching orders, each once, in order.", "quantifier": "every finite history of transactions by any senders with any funds and governance calls, any answers of NFT contracts and any hook contracts", "why_tests_cant": "Ranges over all states and histories; a test sees one book.", "anchors": ["contracts/marketplace/src/query.rs"]}
{"id": "C85", "title": "v1 pages respect the limit", "statement": "No listing returns more than min(limit or 10, 100) rows.", "quantifier": "every finite history of transactions by any senders with any funds and governance calls, any answers of NFT contracts and any hook contracts", "why_tests_cant": "Ranges over all states and histories; a test sees one book.", "anchors": ["contracts/marketplace/src/query.rs"]}
{"id": "C86", "title": "v1 ReverseAsks lists all asks by default", "statement": "ReverseAsks without an offset starts at the highest token.", "quantifier": "every finite history of transactions by any senders with any funds and governance calls, any answers of NFT contracts and any hook contracts", "why_tests_cant": "Ranges over all states and histories; a test sees one book.", "anchors": ["contracts/marketplace/src/query.rs"]}
{"id": "C87", "title": "v1 Collections lists each collection once", "statement": "Walking Collections visits every collection with asks exactly once.", "quantifier": "every finite history of transactions by any senders with any funds and governance calls, any answers of NFT contracts and any hook contracts", "why_tests_cant": "Ranges over all states and histories; a test sees one book.", "anchors": ["contracts/marketplace/src/query.rs"]}
{"id": "C88", "title": "v1 Bids can be read page by page", "statement": "Reading the bids on an NFT on from the last bidder seen yields the remaining bids.", "quantifier": "every finite history of transactions by any senders with any funds and governance calls, any answers of NFT contracts and any hook contracts", "why_tests_cant": "Ranges over all states and histories; a test sees one book.", "anchors": ["contracts/marketplace/src/query.rs"]}
{"id": "C89", "title": "v1 expiry paging continues after removals", "statement": "Reading a bidder's bids by expiry on from the last bid seen never repeats earlier bids, even if that bid is removed in between.", "quantifier": "every finite history of transactions by any senders with any funds and governance calls, any answers of NFT contracts and any hook contracts", "why_tests_cant": "Ranges over all states and histories; a test sees one book.", "anchors": ["contracts/marketplace/src/query.rs"]}
{"id": "C90", "title": "v1 AskCount is exact", "statement": "AskCount returns the number of asks of the collection.", "quantifier": "every finite history of transactions by any senders with any funds and governance calls, any answers of NFT contracts and any hook contracts", "why_tests_cant": "Ranges over all states and histories; a test sees one book.", "anchors": ["contracts/marketplace/src/query.rs"]}
{"id": "C91", "title": "v1 sale hooks report the sale truthfully", "statement": "Every sale hook is called once per sale with the collection, token, price, seller and buyer of that sale.", "quantifier": "every finite history of transactions by any senders with any funds and governance calls, any answers of NFT contracts and any hook contracts", "why_tests_cant": "Ranges over all states and histories; a test sees one book.", "anchors": ["contracts/marketplace/src/execute.rs"]}
{"id": "C92", "title": "v1 governance cannot touch orders or money", "statement": "No governance call changes an order or sends coins or NFTs.", "quantifier": "every finite history of transactions by any senders with any funds and governance calls, any answers of NFT contracts and any hook contracts", "why_tests_cant": "Ranges over all states and histories; a test sees one book.", "anchors": ["contracts/marketplace/src/sudo.rs"]}
{"id": "C93", "title": "v1 sales at any allowed price go through", "statement": "A sale whose network fee rounds to zero succeeds.", "quantifier": "every finite history of transactions by any senders with any funds and governance calls, any answers of NFT contracts and any hook contracts", "why_tests_cant": "Ranges over all states and histories; a test sees one book.", "anchors": ["contracts/marketplace/src/execute.rs"]}
{"id": "C94", "title": "v1 owners can reject bids", "statement": "The owner of an NFT can reject any bid on it; the bidder gets exactly the price back and nothing else changes.", "quantifier": "every finite history of transactions by any senders with any funds and governance calls, any answers of NFT contracts and any hook contracts", "why_tests_cant": "Ranges over all states and histories; a test sees one book.", "anchors": ["contracts/marketplace/src/execute.rs"]}
{"id": "C95", "title": "v1 keeps nothing but one unit of rounding dust per call", "statement": "In each call, coins attached + escrow released = coins paid out + escrow taken, or one unit less (rounding of a royalty).", "quantifier": "every finite history of transactions by any senders with any funds and governance calls, any answers of NFT contracts and any hook contracts", "why_tests_cant": "Ranges over all states and histories; a test sees one book.", "anchors": ["contracts/marketplace/src/execute.rs"]}
{"id": "C96", "title": "v2 orders rest exactly as stated", "statement": "A call that does not sell anything changes exactly the order it names: a placed or updated order has the sender as creator and precisely the details of the message, a removed order is gone, every other order, the configuration, the denoms and the listing fees stay as they are, and the messages sent are exactly the listing fee and custody transfer, the returned NFT, the returned price, or change to the sender. A call that sells takes exactly the two traded orders out of the book.", "quantifier": "every finite history of calls by any senders with any funds, any answers of NFT contracts, registry and chain", "why_tests_cant": "Ranges over all states, messages and answers of other contracts; a test sees one book.", "anchors": ["contracts/stargaze-marketplace-v2/src/execute.rs", "contracts/stargaze-marketplace-v2/src/orders.rs"]}
{"id": "C97", "title": "v2 administrative calls take effect exactly", "statement": "An administrative call succeeds if and only if the sender is the contract's admin, the addresses are valid and the fee parts are in range, and then sets exactly the named item and sends nothing. Instantiation succeeds under the same conditions and gives an empty book.", "quantifier": "every finite history of calls by any senders with any funds, any answers of NFT contracts, registry and chain", "why_tests_cant": "Ranges over all states, messages and answers of other contracts; a test sees one book.", "anchors": ["contracts/stargaze-marketplace-v2/src/execute.rs", "contracts/stargaze-marketplace-v2/src/instantiate.rs", "contracts/stargaze-marketplace-v2/src/state.rs"]}
{"id": "C98", "title": "v2 entry prices", "statement": "Every successful call that asks or bids names a positive price in the denom set for the collection, or in the default denom if none is set.", "quantifier": "every finite history of calls by any senders with any funds, any answers of NFT contracts, registry and chain", "why_tests_cant": "Ranges over all states, messages and answers of other contracts; a test sees one book.", "anchors": ["contracts/stargaze-marketplace-v2/src/helpers.rs"]}
{"id": "C99", "title": "v2 holds only validated addresses", "statement": "In every reachable state the fee manager, the registry, and the collection, recipient and finder of every resting order are valid addresses.", "quantifier": "every finite history of calls by any senders with any funds, any answers of NFT contracts, registry and chain", "why_tests_cant": "Ranges over all states, messages and answers of other contracts; a test sees one book.", "anchors": ["contracts/stargaze-marketplace-v2/src/execute.rs", "contracts/stargaze-marketplace-v2/src/orders.rs", "contracts/stargaze-marketplace-v2/src/state.rs"]}
{"id": "C100", "title": "v2 tells the registry about unregistered royalties", "statement": "A sale asks the royalty registry to register the collection exactly when the registry knows no royalty for it and the collection advertises one; no other call does.", "quantifier": "every finite history of calls by any senders with any funds, any answers of NFT contracts, registry and chain", "why_tests_cant": "Ranges over all states, messages and answers of other contracts; a test sees one book.", "anchors": ["packages/sg-marketplace-common/src/royalties.rs"]}
{"id": "C101", "title": "A bid changes exactly the named auction", "statement": "A successful bid carries exactly one positive coin in the auction's denom, comes from someone other than the seller, records bidder, amount, first-bid time and end time as stated (extended when close to the end), returns the previous high bid in full and touches nothing else.", "quantifier": "every finite history of calls by any senders with any funds, any answers of NFT contracts and chain, any behaviour of the external fee crate", "why_tests_cant": "Ranges over all states, messages and answers of other contracts; a test sees one auction.", "anchors": ["contracts/reserve-auction/src/execute.rs"]}
{"id": "C102", "title": "Exactly who may open an auction", "statement": "Creation succeeds exactly when the sender owns the NFT, has approved the contract, trading has started, no auction exists, the terms are allowed and the fee is paid; it then stores that auction, burns the fee and takes the NFT into custody.", "quantifier": "every finite history of calls by any senders with any funds, any answers of NFT contracts and chain, any behaviour of the external fee crate", "why_tests_cant": "Ranges over all states, messages and answers of other contracts; a test sees one auction.", "anchors": ["contracts/reserve-auction/src/execute.rs", "contracts/reserve-auction/src/helpers.rs"]}
{"id": "C103", "title": "Governance calls do exactly what they say", "statement": "Parameter updates, setting and unsetting minimum prices and migration succeed exactly under the stated conditions, change only the named entries and send nothing; instantiation likewise.", "quantifier": "all states, messages and query answers", "why_tests_cant": "Ranges over all states, messages and answers of other contracts; a test sees one auction.", "anchors": ["contracts/reserve-auction/src/sudo.rs", "contracts/reserve-auction/src/instantiate.rs", "contracts/reserve-auction/src/state.rs"]}
{"id": "C104", "title": "EndBlock drops a halt window exactly when nothing due ended by then", "statement": "With a positive settlement limit, EndBlock drops the oldest halt window exactly if every due auction ended after the window; otherwise it keeps it. At most one window goes per block and the previous block time stays.", "quantifier": "every finite history of calls by any senders with any funds, any answers of NFT contracts and chain, any behaviour of the external fee crate", "why_tests_cant": "Ranges over all states, messages and answers of other contracts; a test sees one auction.", "anchors": ["contracts/reserve-auction/src/sudo.rs", "contracts/reserve-auction/src/state.rs"]}
{"id": "C105", "title": "Minimum prices and auctions can be read back", "statement": "The minimum-price query returns ordered, complete pages that can be walked; the auction query returns exactly the stored auction.", "quantifier": "all states and query options", "why_tests_cant": "Ranges over all states, messages and answers of other contracts; a test sees one auction.", "anchors": ["contracts/reserve-auction/src/query.rs"]}
{"id": "C106", "title": "Listing calls succeed exactly under their conditions, with exactly this effect", "statement": "SetAsk, RemoveAsk and UpdateAskPrice succeed exactly when the caller owns the NFT, price, expiry, listing fee, finder's fee, approval, trading time and reservation are in order; then exactly that ask is stored, changed or removed, the listing fee is burnt, and the ask hooks are told exactly this ask and action.", "quantifier": "every finite history of calls by any senders with any funds, at any times, any answers of NFT contracts, whether or not the chain accepts burning nothing; no overflow of machine integers", "why_tests_cant": "Ranges over all states, messages, times and answers of other contracts; a test sees one order book.", "anchors": ["contracts/marketplace/src/execute.rs", "contracts/marketplace/src/state.rs"]}
{"id": "C107", "title": "Bidding calls rest or buy exactly under their conditions", "statement": "SetBid, BuyNow and BuyFor succeed exactly when payment, limits and the ask allow it. Without an ask, below a fixed price or at least at an auction's price the bid rests with exactly these terms; at the fixed price the NFT is sold on the ask's terms and ask and previous bid are gone. A previous bid is refunded. Hooks are told exactly this bid or sale.", "quantifier": "every finite history of calls by any senders with any funds, at any times, any answers of NFT contracts, whether or not the chain accepts burning nothing; no overflow of machine integers", "why_tests_cant": "Ranges over all states, messages, times and answers of other contracts; a test sees one order book.", "anchors": ["contracts/marketplace/src/execute.rs", "contracts/marketplace/src/state.rs"]}
{"id": "C108", "title": "Withdrawals, rejections, acceptances and collection bids have exactly this effect", "statement": "RemoveBid, RejectBid, AcceptBid, SetCollectionBid, RemoveCollectionBid and AcceptCollectionBid succeed exactly under their stated conditions and change exactly the named order (and the ask on the NFT sold), with exactly the stated messages and hook calls.", "quantifier": "every finite history of calls by any senders with any funds, at any times, any answers of NFT contracts, whether or not the chain accepts burning nothing; no overflow of machine integers", "why_tests_cant": "Ranges over all states, messages, times and answers of other contracts; a test sees one order book.", "anchors": ["contracts/marketplace/src/execute.rs", "contracts/marketplace/src/state.rs"]}
{"id": "C109", "title": "Operator calls have exactly this effect", "statement": "SyncAsk sets the active flag of an ask to the current approval, and fails if it already agrees; RemoveStaleAsk removes an ask exactly if the NFT has no owner, the approval is gone or the ask has expired; stale bids are removed exactly after the stale period, with the reward taken from the price.", "quantifier": "every finite history of calls by any senders with any funds, at any times, any answers of NFT contracts, whether or not the chain accepts burning nothing; no overflow of machine integers", "why_tests_cant": "Ranges over all states, messages, times and answers of other contracts; a test sees one order book.", "anchors": ["contracts/marketplace/src/execute.rs", "contracts/marketplace/src/state.rs"]}
{"id": "C110", "title": "Governance calls and set-up have exactly this effect", "statement": "UpdateParams sets exactly the given parameters within their limits (never the operators); operators and hooks join and leave their lists one at a time; instantiation stores exactly the given parameters with the operators sorted and without repetition, no orders, and at most one sale hook.", "quantifier": "all states, messages and parameters", "why_tests_cant": "Ranges over all states, messages, times and answers of other contracts; a test sees one order book.", "anchors": ["contracts/marketplace/src/sudo.rs", "contracts/marketplace/src/execute.rs"]}
{"id": "C111", "title": "Single orders can be read back", "statement": "The queries for an ask, a bid and a collection bid return exactly what is stored under that key.", "quantifier": "every finite history; all keys", "why_tests_cant": "Ranges over all states, messages, times and answers of other contracts; a test sees one order book.", "anchors": ["contracts/marketplace/src/query.rs"]}
{"id": "C112", "title": "The order book can be rebuilt from the events", "statement": "An observer of marketplace v2 who sees nothing but the contract's events, and handles each event by its type, knows at all times exactly the asks, bids, collection bids, configuration, collection denoms and listing fees in storage; two storages with the same events hold the same orders and settings, provided denoms begin with a letter as on the chain.", "quantifier": "every finite history of calls by any senders with any funds, any block data, any answers of other contracts; every reachable world has such a log", "why_tests_cant": "A test compares the events of a few calls with expected lists; that no sequence of calls, matches and sales ever makes the indexer and the storage diverge needs induction over all histories.", "anchors": ["contracts/stargaze-marketplace-v2/src/events.rs", "contracts/stargaze-marketplace-v2/src/orders.rs", "contracts/stargaze-marketplace-v2/src/execute.rs", "contracts/stargaze-marketplace-v2/src/helpers.rs"]}
{"id": "C113", "title": "Every sale is reported in full, and nothing else is reported as one", "statement": "A successful call to marketplace v2 emits exactly one event; the event is finalize-sale exactly if the call sells an NFT, and it then names the collection, token, price, recipients and both orders of that trade and lists exactly the payments made, each under its role (protocol, maker, taker, royalty, seller).", "quantifier": "every finite history of calls, all senders, funds, messages, block data and answers of other contracts", "why_tests_cant": "Payments depend on configuration, finders and royalty answers, and zero payments are left out; agreement of report and transfers is claimed for all of them.", "anchors": ["contracts/stargaze-marketplace-v2/src/helpers.rs", "contracts/stargaze-marketplace-v2/src/execute.rs", "packages/sg-marketplace-common/src/sale.rs"]}
{"id": "C114", "title": "The auctions can be rebuilt from the events", "statement": "An observer of the reserve auction who sees only the contract's events with their block times, and handles each event by its type, knows at all times exactly the storage: every auction, the minimum reserve prices and the configuration. (Found false of the code for the duration of an auction that has no bid yet and for the longest allowed duration, which no event tells; true of everything else.)", "quantifier": "every finite history of calls, governance calls and block hooks, with any senders, funds, times and answers of other contracts; every reachable world has such a log", "why_tests_cant": "That no sequence of bids, postponements, settlements and parameter changes makes an indexer and the storage diverge needs induction over all histories; that two different storages can look the same needs a pair of histories, which no single test run compares.", "anchors": ["contracts/reserve-auction/src/execute.rs", "contracts/reserve-auction/src/helpers.rs", "contracts/reserve-auction/src/sudo.rs", "contracts/reserve-auction/src/instantiate.rs"]}
{"id": "C115", "title": "Settlements, postponements and bids are reported as they happen", "statement": "The settle-auction events of a settlement call or an end blocker name, in order and once each, exactly the NFTs sent out and their recipients; an auction disappears exactly with a settle-auction event giving its seller, bidder and bid, and changes its end exactly with a postpone-auction event giving the new end. A bid's event gives bidder, coin paid and resulting end time, and names a previous bidder and amount exactly as they are refunded.", "quantifier": "every history, every number of due auctions, any halt windows, any senders, funds, times and answers of other contracts", "why_tests_cant": "The end blocker processes an arbitrary list of auctions in index order, some sold and some postponed; the claim is about all lists.", "anchors": ["contracts/reserve-auction/src/helpers.rs", "contracts/reserve-auction/src/execute.rs", "contracts/reserve-auction/src/sudo.rs"]}
{"id": "C116", "title": "Marketplace v1's order book can be rebuilt from its events", "statement": "An observer of marketplace v1 who knows the instantiation message and sees only the events of each call, handled by type, knows at all times exactly the asks, bids, collection bids, operators, hooks and parameters in storage. (Found false of the code for where the proceeds of an ask go, for finder's fees and for parameter values, which no event tells; and a set-bid event does not mean that a bid rests, since a purchase emits it too. True of everything else when the events of a call are read together.)", "quantifier": "every finite history of calls and governance calls with any senders, funds, block data and answers of other contracts; every reachable world has such a log", "why_tests_cant": "That no sequence of listings, purchases, acceptances, rejections and clean-ups makes indexer and storage diverge needs induction over all histories; that two different storages can look the same needs pairs of histories.", "anchors": ["contracts/marketplace/src/execute.rs", "contracts/marketplace/src/sudo.rs", "contracts/marketplace/src/state.rs"]}
{"id": "C117", "title": "Marketplace v1 reports sales and removals as they happen", "statement": "A call that moves an NFT emits, in order, a royalty-payout exactly if a royalty is paid, with its amount and recipient; a finalize-sale with collection, token, seller, buyer, price and recipient of the deal carried out; and the event of the call itself. Every other call emits exactly one event. The price in a rejection and the reward in a clean-up are the amounts paid, refund and reward together being the bid; a listing removed by an operator is removed for the reasons the event gives. The sale type in the event of a bid is that of the sale. (Found false of the code: the last is whatever the caller wrote.)", "quantifier": "every history, sender, funds, message, block data and answers of other contracts", "why_tests_cant": "Royalties, finders and fees vary freely and the same events come from five kinds of calls; agreement of report and payments is claimed for all of them.", "anchors": ["contracts/marketplace/src/execute.rs"]}
{"id": "C118", "title": "Every page of a v1 listing holds exactly the next rows", "statement": "For any offset, whether or not it names an order, and any limit, each v1 listing of asks, bids and collection bids succeeds on valid addresses and returns exactly the first min(limit or 10, 100) matching orders lying after the offset (before it, for the reverse listings), in the order of the listing. By expiry, an offset counts only if its bid rests.", "quantifier": "every finite history of transactions and governance calls; all offsets, limits and addresses", "why_tests_cant": "Offsets range over all keys, including those of removed orders and of other collections; tests page through one book from its own rows.", "anchors": ["contracts/marketplace/src/query.rs"]}
{"id": "C119", "title": "Migration never downgrades a contract or turns it into another", "statement": "Over any sequence of calls and migrations the version record of a contract keeps its contract name and its version never decreases; code older than a version once recorded is refused ever after; migration changes nothing but the record. (Found true of marketplace v1 and false of marketplace v2 and the reserve auction, whose migrate accepts any storage.)", "quantifier": "every contract deployed at any version and every finite sequence of calls and of migrations to code of any versions; any transitive comparison of versions", "why_tests_cant": "Tests migrate once between two fixed versions; the claim is about every chain of upgrades interleaved with trading.", "anchors": ["contracts/marketplace/src/execute.rs:1463-1487", "contracts/stargaze-marketplace-v2/src/migrate.rs", "contracts/reserve-auction/src/migrate.rs"]}
{"id": "C120", "title": "The bytes in storage are a faithful image of the contract's state", "statement": "Under the namespaces and index functions of the three state.rs files, no two records, index entries or items ever share a byte key; saving or removing a record updates exactly its own entry and its index entries, so that after any sequence of writes the store is the image of the abstract state; every load and every indexed range read from the bytes, in byte order and with byte bounds, returns what the abstract map and numeric/lexicographic order say; and a state has exactly one store (v1: up to absent versus empty hook lists).", "quantifier": "all states and write sequences whose length-prefixed key parts are at most 65535 bytes and whose integers are in range of their Rust types; all bounds and directions", "why_tests_cant": "A collision between two namespaces or two composite keys, an index entry left behind by an update, or a byte order that differs from the numeric order shows up only for particular key lengths and values.", "anchors": ["contracts/marketplace/src/state.rs", "contracts/stargaze-marketplace-v2/src/state.rs", "contracts/reserve-auction/src/state.rs"]}
{"id": "C121", "title": "Marketplace v2 order calls succeed exactly under their conditions, with exactly their effect", "statement": "Each of the fourteen order calls of marketplace v2 (list, sell, update, remove, bid, buy, accept and their collection variants) succeeds if and only if the conditions written for it in a separate transition relation hold (valid names, tradability, price and denom limits, ownership, payment, a resting counter-order or none, payable dues), and then the new storage is exactly the one and the messages are exactly the list written there, in order: with all ties between resting orders decided, the change per denom, the fee, royalty, finder and seller payments, the new ids and the nonce. A call is refused exactly when no case applies.", "quantifier": "all histories of calls with 128-bit amounts, all senders, funds, messages, query answers and blocks; injective hash, addresses slash- and prefix-free", "why_tests_cant": "An equivalence covers every refusal as well as every success; tests sample neither the refusals nor the ties between equal prices.", "anchors": ["contracts/stargaze-marketplace-v2/src/execute.rs:238-1011", "contracts/stargaze-marketplace-v2/src/orders.rs", "contracts/stargaze-marketplace-v2/src/helpers.rs"]}
{"id": "C122", "title": "Reserve auction calls and block hooks succeed exactly under their conditions, with exactly their effect", "statement": "Each user call of the reserve auction (create, reprice, cancel, bid, settle) and each privileged call (BeginBlock, EndBlock, parameters, minimum prices, migration) succeeds if and only if the conditions written for it in a separate transition relation hold, and then the new storage and the messages are exactly those written there. EndBlock fails exactly when one of the first due auctions, up to the limit, is not over, has no split, or has an unknown royalty; on the chain, with honest collections, it goes through exactly when moreover nobody who is paid is a blocked account.", "quantifier": "all histories, all behaviours of the external crate, all senders, 128-bit funds, messages, query answers and block times; all reachable worlds", "why_tests_cant": "An equivalence covers every refusal as well as every success, over unbounded numbers of due auctions and halt windows.", "anchors": ["contracts/reserve-auction/src/execute.rs:24-374", "contracts/reserve-auction/src/helpers.rs:11-122", "contracts/reserve-auction/src/sudo.rs:50-250"]}
{"id": "C123", "title": "The reserve auction's books balance over every history", "statement": "For every bidder and denom, all coins ever sent with the bidder's PlaceBid calls equal all coins ever returned to the bidder when a higher bid came, plus what the bidder's leading bids hold now, plus what the bidder's won auctions cost. Every won auction delivers its NFT to the leading bidder in the call that ends it, and that call pays out exactly what was bid. All coins that ever entered the contract left it again, or lead an auction, or were paid above a creation fee.", "quantifier": "all histories of user calls and block hooks, all bidders, denoms and behaviours of the external crate", "why_tests_cant": "The books are sums over unbounded histories of interleaved auctions; a leak that needs a long sequence does not show in a scripted run.", "anchors": ["contracts/reserve-auction/src/execute.rs:83-374", "contracts/reserve-auction/src/helpers.rs:48-122", "contracts/reserve-auction/src/sudo.rs:50-125"]}
{"id": "C124", "title": "Marketplace v2's books balance over every history", "statement": "For every buyer and denom, all coins ever sent with the buyer's calls equal all coins those calls returned, plus what was spent, plus what the buyer's resting bids hold now. What is spent in an own call is exactly the price of one listing, whose NFT goes to who the call names. A bid that leaves the book in any other call was sold into: the NFT it asks for goes to who it names, and the bid plus the listing fee is all that leaves the contract. All coins that ever entered the contract left it again, or back a bid, or came with a call that ignores coins.", "quantifier": "all histories of fewer than 2^64-1 successful calls, all buyers and denoms; injective hash, addresses slash- and prefix-free", "why_tests_cant": "The books are sums over unbounded histories of bids, updates, matches and refunds by everybody.", "anchors": ["contracts/stargaze-marketplace-v2/src/execute.rs:238-1011", "contracts/stargaze-marketplace-v2/src/orders.rs", "contracts/stargaze-marketplace-v2/src/helpers.rs"]}
{"id": "C125", "title": "Marketplace v1's books balance over every history", "statement": "For every buyer and denom, all coins ever sent with the buyer's calls equal all coins returned to the buyer, plus what was spent, plus rewards kept by operators who removed stale bids, plus what the buyer's resting bids hold now. What is spent in an own call is exactly the price of one listing, whose NFT goes to who the call names. A bid that leaves the book in any other call was either sold into (the NFT goes to the bidder and all but at most one unit of the bid is paid out) or returned to the bidder, less nothing or exactly the configured reward. All coins that ever entered the contract left it again or back a bid, but for at most one unit per sale.", "quantifier": "all histories of user and governance calls, all buyers and denoms", "why_tests_cant": "The books are sums over unbounded histories of bids, replacements, purchases and removals by everybody.", "anchors": ["contracts/marketplace/src/execute.rs:313-1105", "contracts/marketplace/src/sudo.rs"]}
{"id": "C126", "title": "Calls of marketplace v1 are local", "statement": "A user call's answer (messages with hook calls, or the exact error) and effect depend only on the parameters, the hooks and the places of the book it is about: the listing of the NFT, and the bid or collection bid of the named or calling bidder; every other place keeps its content. Hence two calls about disjoint places can be made in either order with the same answers and the same final storage, and in any sequence of user and governance calls, failed ones included, the calls that concern a collection get the same answers and leave the same book for it as if no call about another collection had ever been made.", "quantifier": "all states, all pairs of calls, all finite sequences of calls with arbitrary views and blocks", "why_tests_cant": "It compares two executions, for every pair of calls and every interleaving with calls of others.", "anchors": ["contracts/marketplace/src/execute.rs:107-1121", "contracts/marketplace/src/state.rs:91-297"]}
{"id": "C127", "title": "Calls of the reserve auction are local", "statement": "A user call's answer and effect depend only on the configuration, the minimum prices, the record of halts and the auction of the NFT it names; all other auctions keep their content. Calls about different NFTs can be made in either order with the same answers and final storage, and in any sequence of user calls, governance calls and block beginnings an auction develops as if no call about another NFT had been made. The end of a block should not let one auction influence another either.", "quantifier": "all histories, all pairs of calls, all finite sequences of calls with arbitrary views and blocks", "why_tests_cant": "It compares two executions, for every pair of calls and every interleaving with calls of others.", "anchors": ["contracts/reserve-auction/src/execute.rs:24-374", "contracts/reserve-auction/src/sudo.rs:50-250", "contracts/reserve-auction/src/helpers.rs:48-122"]}
{"id": "C128", "title": "Order calls of marketplace v2 are local to a collection", "statement": "Whether an order call succeeds, the messages it sends and what it does to the orders of its collection depend only on the configuration, the listing fees, the denom and the orders of the collection it names (or whose order it names) - besides the counter, for the calls that put a new bid into the book; the orders of every other collection stay as they are. Hence two calls about different collections can be made in either order with the same messages and the same final storage, unless the counter passes between them, and two runs that treat a collection alike have the same orders for it at the end. Bids for other collections should not decide who gets an NFT.", "quantifier": "all histories, all pairs of states that agree on a collection, all pairs of calls, all pairs of interleaved runs", "why_tests_cant": "It compares two executions, for every pair of calls and every interleaving with calls about other collections.", "anchors": ["contracts/stargaze-marketplace-v2/src/execute.rs:238-1011", "contracts/stargaze-marketplace-v2/src/orders.rs:80-330", "contracts/stargaze-marketplace-v2/src/state.rs:1-160"]}
{"id": "C129", "title": "The hash and the address format matter only where they are used", "statement": "A call of marketplace v2 uses the hash only on the strings built from the collection, token, height and counter it handles, and checks only the addresses named in the call, in the configuration and in the royalty information of the collections concerned. So what is proved for a hash without any collision and for addresses that never begin one another holds for every history in which no two of the strings actually hashed collide and no address actually used begins another; a collision among them, however, can destroy a bid together with its escrow.", "quantifier": "all hash functions, address checks, histories and calls, on the storage and on the chain with re-entrancy", "why_tests_cant": "It replaces the hash function and the address check by any others that agree on the strings used, for every call and history; no hash is injective, so the usual assumption cannot be tested at all.", "anchors": ["contracts/stargaze-marketplace-v2/src/helpers.rs:18-29", "contracts/stargaze-marketplace-v2/src/orders.rs:50-63", "contracts/stargaze-marketplace-v2/src/orders.rs:170-218", "contracts/stargaze-marketplace-v2/src/orders.rs:260-311", "contracts/stargaze-marketplace-v2/src/execute.rs:28-149"]}
{"id": "C130", "title": "Marketplace v2: exactly which transactions go through, and every balance afterwards", "statement": "On the chain, a transaction of marketplace v2 goes through exactly when the sender can pay the attached coins, the contract accepts the call, every recipient of its messages can receive coins and the NFT it moves can be moved; the contract's own balance never stands in the way. Afterwards every balance, NFT owner and approval is the one obtained by adding up the coins attached and the messages sent. In particular: selling into the best bid, buying at the lowest ask and taking back an order go through exactly under the stated conditions.", "quantifier": "all reachable chain states, senders, attached coins and calls", "why_tests_cant": "Success is characterised for every state and call, in both directions; tests show single successes and failures.", "anchors": ["contracts/stargaze-marketplace-v2/src/execute.rs:28-149", "contracts/stargaze-marketplace-v2/src/execute.rs:238-1011", "contracts/stargaze-marketplace-v2/src/helpers.rs:84-251", "packages/sg-marketplace-common/src/sale.rs:9-76"]}
{"id": "C131", "title": "Reserve auction: exactly which transactions and block hooks go through, and every balance afterwards", "statement": "On the chain, a call or block hook of the reserve auction goes through exactly when the sender can pay, the contract accepts it, every payee can receive coins and the NFT can be moved; every balance, owner and approval afterwards is the sum of coins attached and messages sent. A bid fails on the chain for exactly one reason more than in the contract, a leader that cannot receive coins; the seller can always take back an auction without bids; anyone can settle an auction as soon as it can be finished.", "quantifier": "all reachable chain states, senders, attached coins, calls and block hooks", "why_tests_cant": "Success is characterised for every state and call, in both directions.", "anchors": ["contracts/reserve-auction/src/execute.rs:24-374", "contracts/reserve-auction/src/helpers.rs:48-122", "contracts/reserve-auction/src/sudo.rs:14-250"]}
{"id": "C132", "title": "Marketplace v1: exactly which transactions go through, and every balance afterwards", "statement": "On the chain, a transaction of marketplace v1 goes through exactly when the sender can pay, the call has an effect according to C106-C109, every recipient can receive a positive amount and the NFT can be moved; hooks never matter. Every balance, owner and approval afterwards is the sum of coins attached and messages sent. In particular: an operator can remove a stale bid exactly when the reward is neither zero nor the whole bid; a bidder can always take back a bid; the owner can always reject one; a bid can be accepted and a listing bought exactly when the parts of the sale arrive.", "quantifier": "all reachable chain states without overflowing amounts, senders, attached coins and calls", "why_tests_cant": "Success is characterised for every state and call, in both directions, including sales whose fee rounds to zero.", "anchors": ["contracts/marketplace/src/execute.rs:107-1123", "contracts/marketplace/src/execute.rs:1124-1263"]}
{"id": "C133", "title": "No ended auction waits for ever for EndBlock", "statement": "EndBlock processes a bounded number of auctions, in the order of their end. Once the second in which an auction ends has passed, nothing that users or the chain do puts another auction in front of it, and it is left alone until it is processed; so it is sold or postponed before the successful EndBlocks have had room for all auctions in front of it and one more. On the chain, if no halt is on record and all due auctions can be finished, that many EndBlocks go through and the NFT ends up with the winner. EndBlock goes through exactly when the first due auctions can all be finished.", "quantifier": "all histories, all sequences of calls and blocks, all numbers of due auctions and limits", "why_tests_cant": "The queue may have any length and any calls may come between the blocks; tests settle a handful of auctions.", "anchors": ["contracts/reserve-auction/src/sudo.rs:79-125", "contracts/reserve-auction/src/helpers.rs:48-122", "contracts/reserve-auction/src/state.rs:98-117", "contracts/reserve-auction/src/execute.rs:259-357"]}
{"id": "C134", "title": "Contracts on the same chain cannot hurt each other", "statement": "On a chain with any number of instances of the three contracts at different addresses, whatever happens in whatever order, also when foreign code calls one of them while another one's messages are being carried out: each instance is in a state it could be in on a chain of its own, so everything proved of one contract holds of each of them; each can pay what it owes; each has the NFTs it offers, so no NFT of a standard collection is offered in two places; and a transaction that goes through on the instance's own chain goes through among the others with the same effect and without touching their storage.", "quantifier": "all sets of instances, all histories of the chain, all interleavings and nestings of calls", "why_tests_cant": "The repository tests each contract by itself; interleavings of several contracts with nested calls are unbounded.", "anchors": ["contracts/marketplace/src/execute.rs:107-310", "contracts/stargaze-marketplace-v2/src/execute.rs:28-149", "contracts/reserve-auction/src/execute.rs:24-80", "contracts/reserve-auction/src/sudo.rs:20-77"]}
{"id": "C135", "title": "The books of NFTs: every NFT is taken in and handed out in turn, to who has the title", "statement": "Over a whole history, the transfers of an NFT that the reserve auction orders alternate between into the contract and out of it. It comes in exactly in the call that creates its auction and leaves exactly in the call that removes the auction, to the high bidder or, if nobody bid, to the seller, never to the contract itself. No call orders any other transfer. Marketplace v2 orders at most one transfer of an NFT per call: in when it is listed, to the recipient named by the seller when the listing is taken back, to the winning side when it is sold, listed or directly; at the end it is in exactly when it is listed, and the contract never hands out an NFT to itself.", "quantifier": "all histories of calls, sudo messages and blocks, all NFTs, all answers of other contracts", "why_tests_cant": "The order of all transfers over histories of any length is characterised, including EndBlocks that finish many auctions at once; tests look at the owner after a few calls.", "anchors": ["contracts/reserve-auction/src/execute.rs:24-80", "contracts/reserve-auction/src/sudo.rs:20-77", "contracts/reserve-auction/src/helpers.rs:48-122", "contracts/stargaze-marketplace-v2/src/execute.rs:28-149"]}
{"id": "C136", "title": "What a contract holds beyond its books is locked for ever", "statement": "For each of the three contracts: the coins it has beyond what it owes (open bids, high bids) never become less, whatever anybody does, including governance and migration; and an NFT of a standard collection that it has without a listing or auction stays with it and can never be listed or auctioned. So nobody can take out coins or NFTs that are not theirs, and what is sent to a contract by mistake, or by naming it as a recipient, is lost: there is no way to recover it.", "quantifier": "all reachable states and all later states, all denominations, all NFTs of standard collections, foreign code running in between", "why_tests_cant": "It is a statement about everything that can ever happen after a state; tests can only show that some attempts fail.", "anchors": ["contracts/marketplace/src/execute.rs:107-310", "contracts/stargaze-marketplace-v2/src/execute.rs:28-149", "contracts/reserve-auction/src/execute.rs:24-80", "contracts/reserve-auction/src/sudo.rs:20-77"]}
{"id": "C137", "title": "Rounding costs the seller less than a few units, and a higher price never pays less", "statement": "In every sale of marketplace v2 the seller gets the exact share of the price that the rates leave, short of it by less than one unit for each of the one to four fees paid. In every sale of marketplace v1 they get that share, at most one unit less and less than three units more. Of two sales under the same rates, the one at the higher price pays its seller no less.", "quantifier": "all sales of all histories, all prices, rates, royalties and finders", "why_tests_cant": "The bound is for all prices and all combinations of rates; tests check a few round prices, where nothing is rounded.", "anchors": ["contracts/stargaze-marketplace-v2/src/helpers.rs:84-225", "contracts/marketplace/src/execute.rs:1185-1263"]}
{"id": "C138", "title": "An auction cannot go on for ever", "statement": "As long as an auction is there, every further bid multiplies its price by at least one plus the least increment configured meanwhile. If m increments make up the whole price and nobody can pay more than b, there are fewer than m (log2 b + 1) further bids. Unless the chain halts, the end moves by at most one extension per bid, so it never lies beyond a time that is known from the first bid on: the end then set plus m (log2 b + 1) extensions.", "quantifier": "all histories of any length, all auctions, all changes of the configuration meanwhile", "why_tests_cant": "It bounds the length of all possible bidding wars; a test can only play some of them.", "anchors": ["contracts/reserve-auction/src/execute.rs:execute_place_bid", "contracts/reserve-auction/src/state.rs:Auction", "contracts/reserve-auction/src/state.rs:HighBid"]}
{"id": "C139", "title": "Every call and every block does a bounded amount of work", "statement": "However many orders, auctions and bidders there are: a call of marketplace v2 sends at most eight messages (six payments, one NFT, one note to the royalty registry), one of marketplace v1 at most six plus one for each hook of a single list of hooks, one of the reserve auction at most four; each changes at most one ask, one bid and one collection bid, or one auction. A block hook of the reserve auction changes at most max_auctions_to_settle_per_block auctions and sends at most four messages for each; all other privileged calls send nothing.", "quantifier": "all states, callers, messages, query answers and block times", "why_tests_cant": "It bounds the work over books of any size; a test has a book of some size.", "anchors": ["contracts/stargaze-marketplace-v2/src/helpers.rs:finalize_sale", "packages/sg-marketplace-common/src/sale.rs:NftSaleProcessor", "contracts/reserve-auction/src/sudo.rs:sudo_end_block", "contracts/marketplace/src/execute.rs:finalize_sale"]}
{"id": "C140", "title": "All accounts are treated alike", "statement": "Rename the accounts (no two to one, the contract itself keeping its name, addresses staying valid or invalid) in everything a call can see: the book, the configuration, the answers of the collections and of the registry, the call itself and its sender. Then the outcome is the outcome of the original call with the accounts renamed: the same book, messages and hook calls up to the new names, or the same error. So no decision depends on an address other than by comparing it with another one: there are no hidden privileges, and the order of addresses decides nothing. For the reserve auction this includes the blocks, which settle the same auctions in the same order, and for it and marketplace v1 the calls of governance.", "quantifier": "all renamings, states, callers, messages, query answers and block times", "why_tests_cant": "It relates every run to all its renamings; a test with other names is one more run.", "anchors": ["contracts/stargaze-marketplace-v2/src/execute.rs:execute", "contracts/reserve-auction/src/execute.rs:execute", "contracts/reserve-auction/src/sudo.rs:sudo", "contracts/marketplace/src/execute.rs:execute", "contracts/marketplace/src/sudo.rs:sudo"]}
{"id": "C141", "title": "Everybody can get out, in any order", "statement": "Take any of the resting orders of a marketplace and let their creators withdraw them one after the other, in any order. Every withdrawal goes through. In the end these orders are gone and all others are untouched; every account has got exactly the coins of its bids, out of the coins of the marketplace, and the listed NFTs are with their sellers or the accounts these named; nothing else has changed. If all orders are withdrawn the book is empty. In marketplace v1 this holds for the bids and collection bids (asks hold nothing). In the reserve auction it holds for cancelling auctions without bids and settling auctions that have ended, in any order and mixed: winners get the NFTs, royalties and proceeds are paid in full, and the order of the calls makes no difference.", "quantifier": "all reachable states, all lists of resting orders or closable auctions, in any order, of any length", "why_tests_cant": "It covers all orders in which any number of users can leave; a test plays a few.", "anchors": ["contracts/stargaze-marketplace-v2/src/execute.rs:execute_remove_ask", "contracts/stargaze-marketplace-v2/src/execute.rs:execute_remove_bid", "contracts/stargaze-marketplace-v2/src/execute.rs:execute_remove_collection_bid", "contracts/marketplace/src/execute.rs:execute_remove_bid", "contracts/marketplace/src/execute.rs:execute_remove_collection_bid", "contracts/reserve-auction/src/execute.rs:execute_cancel_auction", "contracts/reserve-auction/src/execute.rs:execute_settle_auction"]}
{"id": "C142", "title": "Within a block the order of bids decides nothing", "statement": "Several people bid on one open auction in the same block; a refused call leaves no trace. If any two of the bids are at least the minimum increment apart, everybody has the coins they bid and can be paid back, and an auction without bids is not set to run for less than one extension, then however the bids are ordered the end is the same: if the highest is high enough it leads, the auction ends when it would have ended had it been the only one, its bidder has paid exactly it, the leader before the block has been paid back, and all other bidders have what they had; if it is not high enough nothing has happened. So nobody gains by paying for an earlier place in the block. (Both conditions are needed: of two bids closer than the increment the earlier one wins, and a second bid in the block of the first one lengthens an auction set to run for less than one extension.)", "quantifier": "all reachable states, auctions, lists of bids of any length and all their orders", "why_tests_cant": "It compares all orders of any number of bids.", "anchors": ["contracts/reserve-auction/src/execute.rs:execute_place_bid", "contracts/reserve-auction/src/state.rs:Auction"]}
{"id": "C143", "title": "Naming one's best price costs nothing", "statement": "In marketplace v2, a call that buys an NFT would have done exactly the same with any higher limit: the same NFT, the same price, the same payments, the same change, the same new book. A call that sells one would have done exactly the same with any lower limit. Of two immediate orders that differ only in their limit, from the same world, if both go through they do the same to the whole world. So the limit decides whether there is a trade, never what is traded or at which price, and nobody gains by hiding what an NFT is worth to them.", "quantifier": "all histories, callers, coins, order calls, limits, query answers and block times", "why_tests_cant": "It compares every call with all its variants.", "anchors": ["contracts/stargaze-marketplace-v2/src/orders.rs:match_with_bid", "contracts/stargaze-marketplace-v2/src/orders.rs:match_with_ask", "contracts/stargaze-marketplace-v2/src/helpers.rs:finalize_sale", "contracts/stargaze-marketplace-v2/src/execute.rs:execute_set_ask", "contracts/stargaze-marketplace-v2/src/execute.rs:execute_set_bid"]}
{"id": "C144", "title": "The quote is the trade", "statement": "What the queries show first is what the next call trades. In marketplace v2, whoever lists, reprices or sells an NFT sells it to the better of the two bids shown by the queries for the highest bid on the token and on the collection (the former at the same price) if it is high enough, and otherwise sells nothing; whoever bids on a collection gets the listing shown by the query for the lowest ask at its price if it is low enough, and whoever bids on a token the listing found under its id; immediate orders without a good enough quote are refused. In the reserve auction, the end of the block processes exactly the first rows of the list of auctions by end time whose time is over, in this order.", "quantifier": "all histories, callers, coins, order calls, query answers and block times", "why_tests_cant": "It relates two interfaces on all books; a test compares them on a few.", "anchors": ["contracts/stargaze-marketplace-v2/src/query.rs:query_bids_by_token_price", "contracts/stargaze-marketplace-v2/src/query.rs:query_asks_by_collection_denom", "contracts/stargaze-marketplace-v2/src/query.rs:query_collection_bids_by_price", "contracts/stargaze-marketplace-v2/src/orders.rs:match_with_bid", "contracts/reserve-auction/src/query.rs:query_auctions_by_end_time", "contracts/reserve-auction/src/sudo.rs:sudo_end_block"]}
{"id": "C145", "title": "Auctions that ended in a halt are left alone until they are postponed", "statement": "Once a halt is on record, an auction whose end lies in it and is past is left exactly as it is by everything that can happen afterwards, calls of anybody, blocks, further halts and governance, until it is postponed: the first thing that happens to it is that its end is moved to the configured time after that moment, and nothing else about it changes. It is neither sold nor bid on nor cancelled before. This holds after every halt for all auctions that were to end in it, as long as EndBlock has room for at least one auction. The halt windows on record at any time are the latest of those noticed since the contract was set up, in order; they leave one by one, the oldest first, and none is forgotten or invented.", "quantifier": "all histories and all continuations of any length, callers, block times, configurations and query answers", "why_tests_cant": "The guarantee is about every continuation after a halt, of any length and with any interleaving of blocks, calls, governance and further halts.", "anchors": ["contracts/reserve-auction/src/sudo.rs:sudo_begin_block", "contracts/reserve-auction/src/sudo.rs:sudo_end_block", "contracts/reserve-auction/src/state.rs:find_stale_halt_info", "contracts/reserve-auction/src/helpers.rs:settle_auction"]}
{"id": "C146", "title": "All ways to make a trade are the same trade", "statement": "In marketplace v2 the calls differ in what they look for, not in what they do. Whoever buys an NFT, whether by placing or executing a bid on the token or on the collection or by accepting the listing, could have sent the call accepting its listing with the same details and coins: the storage afterwards and every message are the same. So any two ways to buy the same NFT with the same recipient and finder, at any two limits, do the same. Whoever offers an NFT that is not listed and sells it at once could have accepted the bid it went to: everything is the same but for the listing fee, which goes to the fee manager first. Whoever reprices a listing so that it is sold, keeping its recipient and finder, could have accepted the bid, with the same effect.", "quantifier": "all histories, callers, coins, details and query answers", "why_tests_cant": "It equates pairs of calls on every book and for every caller; a test compares two calls on one book.", "anchors": ["contracts/stargaze-marketplace-v2/src/execute.rs:execute_set_bid", "contracts/stargaze-marketplace-v2/src/execute.rs:execute_set_collection_bid", "contracts/stargaze-marketplace-v2/src/execute.rs:execute_accept_ask", "contracts/stargaze-marketplace-v2/src/execute.rs:execute_set_ask", "contracts/stargaze-marketplace-v2/src/execute.rs:execute_update_ask", "contracts/stargaze-marketplace-v2/src/execute.rs:execute_accept_bid", "contracts/stargaze-marketplace-v2/src/execute.rs:execute_accept_collection_bid"]}
{"id": "C147", "title": "The end of a block is nothing but settlements", "statement": "Take the ended auctions that EndBlock is to process, the first ones by end time up to the limit, and let anybody settle them one by one in this order within the block. This goes through exactly when EndBlock goes through, with exactly the same messages in the same order and the same storage afterwards, except for the halt windows on record, which only EndBlock tidies. So EndBlock has no power over an auction that a user's settlement does not have, and the converse.", "quantifier": "all histories, block times, configurations, callers, query answers and library behaviours", "why_tests_cant": "It equates one privileged call with a sequence of calls of unbounded length on every state.", "anchors": ["contracts/reserve-auction/src/sudo.rs:sudo_end_block", "contracts/reserve-auction/src/execute.rs:execute_settle_auction", "contracts/reserve-auction/src/helpers.rs:settle_auction"]}
{"id": "C148", "title": "First come, first served at equal prices", "statement": "In marketplace v2, of two bids for the same thing at the same price the one placed earlier is traded first, and of two listings of a collection at the same price the one listed earlier.", "quantifier": "all histories, callers and orders", "why_tests_cant": "Ties are broken by hashes, so whether a test sees the earlier order served is a matter of luck.", "anchors": ["contracts/stargaze-marketplace-v2/src/orders.rs:match_with_bid", "contracts/stargaze-marketplace-v2/src/helpers.rs:generate_id", "contracts/stargaze-marketplace-v2/src/state.rs"]}
{"id": "C149", "title": "A positive limit keeps settlements going", "statement": "In the reserve auction, compiled for a 32-bit machine as CosmWasm contracts are, EndBlock settles the first due auctions up to the limit governance has set; in particular with any positive limit an EndBlock that goes through sells the auction that is due first, unless it ended in a halt.", "quantifier": "all histories on a 32-bit machine, views, blocks and limits", "why_tests_cant": "Tests run on the developer's 64-bit machine, where the cast of the limit to usize loses nothing; no test there can see the deployed behaviour.", "anchors": ["contracts/reserve-auction/src/sudo.rs:sudo_end_block", "contracts/reserve-auction/src/sudo.rs:sudo_update_params"]}
{"id": "C150", "title": "The clock only opens trading (v2)", "statement": "In marketplace v2 a call that goes through at one time goes through at any later time of the same block height with the same effect; the clock matters only through the start of trading. In a later block the messages are the same and so is the storage, but for the name of a bid that the call leaves.", "quantifier": "all histories, calls, callers, views, times and heights", "why_tests_cant": "Tests pick a few block times; that no handler has another dependence on time or height needs all of them.", "anchors": ["packages/sg-marketplace-common/src/nft.rs:only_tradable", "contracts/stargaze-marketplace-v2/src/execute.rs", "contracts/stargaze-marketplace-v2/src/orders.rs:Bid::new"]}
{"id": "C151", "title": "Delay is harmless until a deadline passes (v1)", "statement": "In marketplace v1 a call that goes through at one time goes through at a later time with the same effect exactly when its deadlines have not passed: the expiry it names still leaves the minimal period, and the listing, bid or collection bid it trades with has not expired. Calls that remove orders have no deadline, and the height never matters.", "quantifier": "all states, calls, callers, views and times", "why_tests_cant": "Tests pick a few block times before and after a deadline; that nothing else depends on the time needs all pairs of times.", "anchors": ["contracts/marketplace/src/execute.rs", "contracts/marketplace/src/helpers.rs:ExpiryRange", "contracts/marketplace/src/state.rs"]}
{"id": "C152", "title": "Delay only prolongs auctions (reserve auction)", "statement": "In the reserve auction a call that goes through at one time goes through at any later time, except a bid after the end. The messages are the same, and the storage differs at most in the clock of the auction, which never ends earlier; calls other than bids and settlements in a halt leave the same storage.", "quantifier": "all histories, calls, callers, views and times", "why_tests_cant": "Tests pick a few block times; that nothing but the clock of the auction depends on them needs all pairs of times.", "anchors": ["contracts/reserve-auction/src/execute.rs", "contracts/reserve-auction/src/helpers.rs:settle_auction"]}
{"id": "C153", "title": "Whom v2 listens to", "statement": "The result of a call of marketplace v2, success or error, depends on nothing outside the contract but the answers of the named collection about itself, of the royalty registry about that collection, of the collection about the owner of the NFT when a seller offers one that is not listed, and of the chain about the admin for admin calls. Withdrawals depend on no answer.", "quantifier": "all histories, calls, callers, funds, times and all pairs of views that agree on those answers", "why_tests_cant": "A test fixes the other contracts; that no other contract can influence a call is a statement about all ways in which they may answer.", "anchors": ["contracts/stargaze-marketplace-v2/src/execute.rs", "contracts/stargaze-marketplace-v2/src/helpers.rs:only_contract_admin,finalize_sale", "packages/sg-marketplace-common/src/nft.rs", "packages/sg-marketplace-common/src/royalties.rs"]}
{"id": "C154", "title": "Whom v1 listens to", "statement": "The result of a call of marketplace v1, calls of hooks included, depends on nothing outside the contract but the answers of the named collection: about the owner of the NFT, the approval of the marketplace and itself, as needed by the call. Taking back or removing stale bids depends on no answer.", "quantifier": "all histories, calls, callers, funds, times and all pairs of views that agree on those answers", "why_tests_cant": "A test fixes the other contracts; that no other contract can influence a call is a statement about all ways in which they may answer.", "anchors": ["contracts/marketplace/src/execute.rs"]}
{"id": "C155", "title": "Whom the reserve auction listens to", "statement": "The result of a call of the reserve auction depends on nothing outside the contract but the answers of the named collection: about the owner and approval of the NFT when an auction is created, about itself then and at settlement. The end of a block depends only on the answers of collections with an ended auction. Bids, cancellations and new reserve prices depend on no answer.", "quantifier": "all histories, calls, callers, funds, times and all pairs of views that agree on those answers", "why_tests_cant": "A test fixes the other contracts; that no other contract can influence a call is a statement about all ways in which they may answer.", "anchors": ["contracts/reserve-auction/src/execute.rs", "contracts/reserve-auction/src/helpers.rs:settle_auction", "contracts/reserve-auction/src/sudo.rs:sudo_end_block"]}
{"id": "C156", "title": "Changing an order is taking it back and placing it again (v2)", "statement": "Once trading is open, a bid or collection bid is changed exactly if it could be taken back and placed again with the old price added to the coins attached: the messages of the change and of the new placing are the same and so is the storage, but for the counter of bids and the name of a bid that rests. A listing is changed exactly if its owner, having taken the NFT back, could list it again: the storage is the same, and the messages are but for the listing fee and the way of the NFT into custody.", "quantifier": "all histories, callers, orders, terms, funds, blocks and query answers", "why_tests_cant": "The two ways share almost no code (escrow arithmetic, name of the order, matching); that they agree whenever either succeeds, be the order filled or not, is a statement about all books and payments.", "anchors": ["contracts/stargaze-marketplace-v2/src/execute.rs:execute_update_bid", "contracts/stargaze-marketplace-v2/src/execute.rs:execute_set_bid", "contracts/stargaze-marketplace-v2/src/execute.rs:execute_remove_bid", "contracts/stargaze-marketplace-v2/src/execute.rs:execute_update_collection_bid", "contracts/stargaze-marketplace-v2/src/execute.rs:execute_update_ask"]}
{"id": "C157", "title": "Replacing an order is taking it back and placing another (v1)", "statement": "If a bidder can take a bid back, then SetBid, BuyNow and BuyFor (or SetCollectionBid) have the same result before and after that, be it a success or an error: the same storage and the same messages, but that the old price comes back with the call itself. Only the listeners for bids do not hear that the old bid is gone. A new listing of an NFT has the same result whether the old one is removed first or not.", "quantifier": "all histories, callers, bids, listings, funds, blocks and query answers", "why_tests_cant": "Tests replace one bid by another in a few cases; that nothing else in the call depends on whether the old bid was there, including every error, is a statement about all calls.", "anchors": ["contracts/marketplace/src/execute.rs:execute_set_bid", "contracts/marketplace/src/execute.rs:execute_remove_bid", "contracts/marketplace/src/execute.rs:execute_set_collection_bid", "contracts/marketplace/src/execute.rs:execute_remove_collection_bid", "contracts/marketplace/src/execute.rs:execute_set_ask"]}
{"id": "C158", "title": "A new reserve price is a cancelled auction created again (reserve auction)", "statement": "If the seller of an auction without bids has the fee at hand, and the terms are still allowed, then the reserve price can be changed exactly if the auction could be cancelled and created again with the new price. The storage is the same, and the messages are but for the creation fee and the NFT, which goes to the seller and back.", "quantifier": "all histories, sellers, auctions, prices, funds, blocks and query answers", "why_tests_cant": "The two ways share no code; that they check the same limits and leave the same auction, recipient and duration included, is a statement about all auctions and configurations.", "anchors": ["contracts/reserve-auction/src/execute.rs:execute_update_reserve_price", "contracts/reserve-auction/src/execute.rs:execute_cancel_auction", "contracts/reserve-auction/src/execute.rs:execute_create_auction"]}
{"id": "C159", "title": "No bid is filled or taken back twice (v2)", "statement": "Once a bid or collection bid is gone from the book, be it filled or taken back, every later call that names it (remove, update, accept) fails, whoever makes it, whatever is attached and however the same terms are placed again.", "quantifier": "all histories, later calls, callers, funds, blocks and query answers", "why_tests_cant": "Tests try a stale id once, right after the fill; that no later order ever answers to an old id is a statement about all later histories.", "anchors": ["contracts/stargaze-marketplace-v2/src/helpers.rs:generate_id", "contracts/stargaze-marketplace-v2/src/execute.rs:execute_remove_bid", "contracts/stargaze-marketplace-v2/src/execute.rs:execute_accept_bid", "contracts/stargaze-marketplace-v2/src/execute.rs:execute_accept_collection_bid"]}
{"id": "C160", "title": "The coins attached decide only whether the price is covered (v2)", "statement": "For a call that pays for an NFT or a bid there is one price, so that the call succeeds with any coins that cover it together with what the bid has in escrow, and with no others; storage and messages are the same but for the change, which returns exactly the rest. In particular coins of any denom attached on top come back in full, and a call that changes no bid would have gone with exactly the price and no change.", "quantifier": "all histories, callers, calls, funds, blocks and query answers", "why_tests_cant": "Tests attach the exact price or a little more of the same denom; that neither the amount nor the other denoms influence matching, fees or storage is a comparison of all payments.", "anchors": ["contracts/stargaze-marketplace-v2/src/execute.rs:execute_set_bid", "contracts/stargaze-marketplace-v2/src/execute.rs:execute_update_bid", "contracts/stargaze-marketplace-v2/src/execute.rs:execute_set_collection_bid", "contracts/stargaze-marketplace-v2/src/execute.rs:execute_accept_ask", "packages/sg-marketplace-common/src/coin.rs"]}
{"id": "C161", "title": "Fees, denoms and other contracts never decide who trades (v2)", "statement": "Take two storages with the same orders and counter, whatever their configuration, fees and collection denoms, and let the other contracts answer differently in the two. If a call succeeds in both at the same height then it leaves the same orders and counter, moves the same NFTs to the same people and pays out the same total in every denom; only the split of the price can differ.", "quantifier": "all pairs of histories, calls, callers, funds, blocks and query answers", "why_tests_cant": "A comparison of all pairs of configurations, royalties and query answers on the same book; tests run one configuration at a time.", "anchors": ["contracts/stargaze-marketplace-v2/src/execute.rs:execute_set_ask", "contracts/stargaze-marketplace-v2/src/execute.rs:execute_set_bid", "contracts/stargaze-marketplace-v2/src/execute.rs:execute_accept_bid", "contracts/stargaze-marketplace-v2/src/orders.rs", "contracts/stargaze-marketplace-v2/src/helpers.rs:finalize_sale"]}
{"id": "C162", "title": "Fees, operators, listeners and other contracts never decide who trades (v1)", "statement": "Take two storages with the same listings, bids and collection bids, whatever their parameters, operators and hooks, two blocks, and two sets of answers of the other contracts. If a call succeeds in both then it leaves the same listings, bids and collection bids and moves the same NFTs to the same people. This includes SyncAsk, which goes through only if it changes the listing.", "quantifier": "all storages, calls, callers, funds, blocks, parameters and query answers", "why_tests_cant": "A comparison of all pairs of parameters, hooks, blocks and query answers on the same orders; tests run one setting at a time.", "anchors": ["contracts/marketplace/src/execute.rs:execute_set_bid", "contracts/marketplace/src/execute.rs:execute_accept_bid", "contracts/marketplace/src/execute.rs:execute_sync_ask", "contracts/marketplace/src/execute.rs:finalize_sale", "contracts/marketplace/src/sudo.rs:sudo_update_params"]}
{"id": "C163", "title": "Settings, halts, the clock and other contracts never decide what is auctioned and who leads", "statement": "Take two storages of the reserve auction with the same auctions but for the times of the first bid and of the end, whatever their configurations, minimum reserve prices and recorded halts, two blocks, and two sets of answers of the other contracts. If a call succeeds in both then it leaves the same auctions but for the times and moves the same NFTs to the same people; a successful bid also pays the same coins back to the same bidder. The one exception is a settlement which a halt postpones in one of the two only.", "quantifier": "all storages, calls, callers, funds, blocks, configurations, halts and query answers", "why_tests_cant": "A comparison of all pairs of settings, blocks and query answers on the same auctions; tests run one setting at a time.", "anchors": ["contracts/reserve-auction/src/execute.rs:execute_create_auction", "contracts/reserve-auction/src/execute.rs:execute_place_bid", "contracts/reserve-auction/src/execute.rs:execute_settle_auction", "contracts/reserve-auction/src/helpers.rs:settle_auction"]}
{"id": "C164", "title": "More offers never hurt the other side (v2)", "statement": "If a call sells an NFT and the same call succeeds on a book with more bids, then it sells the NFT there as well, in the same denom, at the same price or a higher one, and to the same bid with the same payments unless an additional bid gets the NFT. If a call buys some NFT of a collection and the same call succeeds on a book with more listings, then it buys there as well, at the same price or a lower one, and the same NFT with the same payments unless an additional listing is bought. A call that buys one particular NFT has the same messages whatever other listings there are.", "quantifier": "all pairs of reachable books one of which extends the other, all calls, callers, funds, blocks and query answers", "why_tests_cant": "Monotonicity over all pairs of books; a test compares one pair.", "anchors": ["contracts/stargaze-marketplace-v2/src/orders.rs:match_with_bid", "contracts/stargaze-marketplace-v2/src/orders.rs:match_with_ask", "contracts/stargaze-marketplace-v2/src/execute.rs:execute_set_ask", "contracts/stargaze-marketplace-v2/src/execute.rs:execute_set_collection_bid"]}
{"id": "C165", "title": "A group gains coins only from sales to outsiders (v2)", "statement": "Take any group of accounts without the fee manager. In every successful call, what the call sends to members plus what they have in escrow afterwards is at most what a member attached plus what they had in escrow before, unless somebody outside of the group buys an NFT in the call; then the gain is at most the price. Hence over every history the group gains at most the sum of what outsiders paid, and if no outsider buys it gets out no more than it put in: trading in circles never pays. A group with the fee manager and the admin gains, besides, at most the listing fees of outsiders.", "quantifier": "all groups of accounts, denoms, reachable storages, calls and histories", "why_tests_cant": "Quantifies over all coalitions and all their strategies.", "anchors": ["contracts/stargaze-marketplace-v2/src/helpers.rs:finalize_sale", "contracts/stargaze-marketplace-v2/src/execute.rs:execute_set_bid", "contracts/stargaze-marketplace-v2/src/execute.rs:execute_update_bid", "contracts/stargaze-marketplace-v2/src/execute.rs:execute_remove_bid"]}
{"id": "C166", "title": "A group gains coins only from auctions that outsiders win (reserve auction)", "statement": "Take any group of accounts. In every successful call and block hook, what is sent to members plus what they lead with afterwards is at most what a member attached plus what they led with before, plus what outsiders pay for the auctions that are over after it. Hence over every history the group gets out at most what it put in plus what outsiders paid for auctions they won: bidding on each other's auctions never pays.", "quantifier": "all groups of accounts, denoms, histories, calls and block hooks", "why_tests_cant": "Quantifies over all coalitions and all their strategies, over unboundedly many auctions.", "anchors": ["contracts/reserve-auction/src/execute.rs:execute_place_bid", "contracts/reserve-auction/src/helpers.rs:settle_auction", "contracts/reserve-auction/src/sudo.rs:sudo_end_block"]}
{"id": "C167", "title": "A group gains coins only from sales to outsiders (v1)", "statement": "Take any group of accounts. In every successful call, what is sent to members plus what they have in escrow afterwards is at most what a member attached plus what they had in escrow before, plus what an outsider pays for an NFT in the call, plus what the operator keeps of a stale bid of an outsider. Hence over every history the group gets out at most what it put in plus what outsiders paid for NFTs and lost as removal rewards: finder's fees, replaced bids and refunds can never be combined to get more.", "quantifier": "all groups of accounts, denoms, histories and calls", "why_tests_cant": "Quantifies over all coalitions and all their strategies.", "anchors": ["contracts/marketplace/src/execute.rs:payout", "contracts/marketplace/src/execute.rs:execute_set_bid", "contracts/marketplace/src/execute.rs:execute_remove_stale_bid"]}
{"id": "C168", "title": "What a group owns on the chain (all three contracts)", "statement": "Take any group of different accounts without the contract itself, and call what it owns the coins in its bank accounts plus those held for its bids (or that it leads auctions with). No transaction of anybody makes a group own more, except by what outsiders pay in that transaction: the price of an NFT an outsider buys and, if the fee manager is a member, the listing fee of an outsider (v2); the winning bids of outsiders in auctions that end, also in block hooks (reserve auction); the price an outsider pays and what an operator keeps of an outsider's stale bid (v1).", "quantifier": "all groups of accounts, denoms, reachable chains and transactions", "why_tests_cant": "Quantifies over all coalitions, transactions and chain states; sums over whole books and all members.", "anchors": ["contracts/stargaze-marketplace-v2/src/helpers.rs:finalize_sale", "contracts/reserve-auction/src/execute.rs", "contracts/reserve-auction/src/sudo.rs:sudo_end_block", "contracts/marketplace/src/execute.rs:payout"]}
{"id": "C169", "title": "Nobody pays in somebody else's transaction but for an NFT", "statement": "Call what an account owns the coins in its bank account plus those held for its bids (or that it leads auctions with). A transaction of anybody else, and a block hook, makes an account own less only by its bids that leave the book in it, and whenever such a bid leaves the book the NFT it asked for is, after the transaction, with the bidder or who the bid names (for standard collections). In v1 there is one more way: an operator who removes a stale bid keeps the reward.", "quantifier": "all accounts, denoms, chain states with a history, transactions of others and block hooks, in all three contracts", "why_tests_cant": "Quantifies over all transactions and all bystanders; sums over whole books.", "anchors": ["contracts/stargaze-marketplace-v2/src/helpers.rs:finalize_sale", "contracts/reserve-auction/src/helpers.rs:settle_auction", "contracts/reserve-auction/src/execute.rs:execute_place_bid", "contracts/marketplace/src/execute.rs:finalize_sale", "contracts/marketplace/src/execute.rs:execute_remove_stale_bid"]}
{"id": "C170", "title": "Nobody's NFT moves in somebody else's transaction", "statement": "An NFT of a standard collection that belongs neither to the sender of a transaction nor to the contract is, after the transaction, still with its owner and has the same approvals, whatever approvals the owner gave the contract before. The same holds for block hooks and governance calls of the reserve auction. In v1, where NFTs stay with their owners while listed, the only exception is a live fixed-price listing by the owner that is open to the sender, who pays exactly its price.", "quantifier": "all reachable chains, transactions, senders and NFTs, in all three contracts", "why_tests_cant": "Quantifies over all transactions, all standing approvals and all order books.", "anchors": ["contracts/stargaze-marketplace-v2/src/execute.rs:execute_set_ask", "contracts/stargaze-marketplace-v2/src/execute.rs:execute_accept_bid", "contracts/reserve-auction/src/execute.rs:execute_create_auction", "contracts/marketplace/src/execute.rs:execute_accept_bid", "contracts/marketplace/src/execute.rs:execute_set_bid"]}
