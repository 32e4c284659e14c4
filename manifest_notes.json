{
 "C02": {
  "note": "Equation under a collision-free hash and fewer than 2^64 calls (otherwise an id clash could overwrite a bid); the inequality needs neither."
 },
 "C03": {
  "status": "partial",
  "note": "False of the code: refuted by a reachable run in which 7 coins attached to AcceptCollectionBid stay in the contract; C03_coins_always_kept shows this happens in every such call."
 },
 "C04": {
  "note": "Assumes the royalty registry does not re-enter the marketplace."
 },
 "C23": {
  "status": "partial",
  "note": "False for arbitrary address strings (ids are hashes of unseparated concatenations); proved when no valid address is a prefix of another."
 },
 "C24": {
  "status": "partial",
  "note": "(a) proved. (b) false: refuted by moving the start time after listing; proved for collections that were never tradable."
 },
 "C29": {
  "status": "partial",
  "note": "False: refuted by a best bid with a finder that cannot receive coins and by a dust bid; proved when the best bid's payments can be received and fees leave room. C130_sell_exactly says exactly when selling into the best bid goes through."
 },
 "C32": {
  "status": "partial",
  "note": "False when the NFT is listed (refuted); proved when it is not."
 },
 "C34": {
  "note": "For every behaviour of the external crate sg-marketplace-common 1.1.0 (record lib) that splits the bid into fee, royalty and rest."
 },
 "C39": {
  "status": "partial",
  "note": "All parts proved except that the first bid may leave less than the extension: refuted with a 60 s auction and a 900 s extension."
 },
 "C43": {
  "note": "Fee and royalty are those computed by the external crate (parameter lib); the split always sums to the winning bid."
 },
 "C45": {
  "status": "partial",
  "note": "False: refuted for every lib by an auction ending later in the current second. Proved when every due auction is over and payable; the exact effect of a successful EndBlock is proved in general, and C122 says exactly when it fails."
 },
 "C46": {
  "status": "partial",
  "note": "False: refuted for every lib by a rogue collection advertising an invalid royalty address (EndBlock fails at every later time), and by a blocked recipient; C46_one_auction_blocks is the general statement. Individual SettleAuction still works (C68). C131_sudo_goes_exactly says exactly when EndBlock goes through."
 },
 "C47": {
  "status": "partial",
  "note": "False: refuted (the window is dropped in an EndBlock with no due auction). Proved for auctions already over when max_auctions_to_settle_per_block > 0."
 },
 "C48": {
  "status": "partial",
  "note": "The fee is burnt exactly (proved); 'keeps nothing else' is false (refuted by overpaying)."
 },
 "C51": {
  "status": "partial",
  "note": "Pages and walks proved; AuctionsByEndTime is pageable only when the end second of the last entry is passed too: the naive paging is refuted."
 },
 "C61": {
  "status": "partial",
  "note": "False: refuted (BuyNow below the asking price or on an auction leaves a resting bid). The exact rule is C61_v1_buy_now_partial."
 },
 "C62": {
  "status": "partial",
  "note": "False: refuted (UpdateAskPrice has no maximum). Proved: only UpdateAskPrice can exceed it."
 },
 "C64": {
  "status": "partial",
  "note": "False for token 0 (refuted); proved for all other tokens."
 },
 "C79": {
  "status": "partial",
  "note": "False: refuted (a later owner may reprice an earlier owner's ask). Proved: the price was set by whoever owned the NFT then."
 },
 "C80": {
  "status": "partial",
  "note": "False: refuted (the ask works again when the NFT comes back). Proved: it sells nothing while the seller does not own the NFT."
 },
 "C82": {
  "status": "partial",
  "note": "False for UpdateParams (refuted: it ignores operators). Add/RemoveOperator proved exact."
 },
 "C83": {
  "status": "partial",
  "note": "False: refuted (a reward of zero makes the bank reject the transaction). Proved when 0 < reward < price and the receivers are not blocked. C132_clean_exactly: these conditions are necessary too."
 },
 "C86": {
  "status": "partial",
  "note": "False: refuted (empty without offset). Proved complete when an offset above all tokens is given."
 },
 "C87": {
  "status": "partial",
  "note": "False: refuted (one row per ask). Proved: every collection with asks and no other appears."
 },
 "C88": {
  "status": "partial",
  "note": "False: refuted, and in every history a page asked for with an offset is empty (collection addresses shorter than 256 bytes, offset not beginning with a zero byte). The first page is right."
 },
 "C89": {
  "status": "partial",
  "note": "False: refuted when the bid of the offset is gone; then the listing is the one without offset. As long as it rests the page holds exactly the bids expiring after it. Without removals the walk is complete (C84)."
 },
 "C93": {
  "status": "partial",
  "note": "False if the chain refuses to burn nothing (refuted for that ext, and shown general: no sale with fee zero then). If it accepts, C77 gives success. C132_sell_exactly and C132_buy_exactly say exactly when a sale goes through."
 },
 "C63": {
  "note": "A hook contract may do anything or fail; out-of-gas inside a hook is not modelled."
 },
 "C84": {
  "note": "The two price-sorted collection-bid listings need the stored bidders to be valid addresses, which holds on the chain."
 },
 "C114": {
  "status": "partial",
  "note": "False of the code for two fields: the duration of an auction without bids and the configuration's max_duration appear in no event (both refuted by pairs of storages with equal logs). C114_observer and C114_events_decide_partial cover everything else. Halt windows are outside the statement."
 },
 "C116": {
  "status": "partial",
  "note": "False of the code for the recipient of an ask's proceeds, the finder's fees and the parameter values, which no event tells (refuted by pairs of storages with equal logs), and a set-bid event also ends a purchase although no bid rests (C116_set_bid_rests_refuted). C116_observer, C116_start and C116_events_decide_partial cover all orders, operators and hooks otherwise; the observer reads the events of a call together."
 },
 "C117": {
  "status": "partial",
  "note": "False of the code for the sale_type attribute of a set-bid event, which is whatever the caller wrote (C117_sale_type_told_refuted); the rest is proved in full."
 },
 "C119": {
  "status": "partial",
  "note": "Proved for marketplace v1 (any semver comparison that is transitive). False of marketplace v2 and the reserve auction, whose migrate writes the record without looking at it: refuted by downgrades and by taking over v1's storage; what remains is that the record names the code and the data are kept."
 },
 "C127": {
  "status": "partial",
  "note": "Proved for user calls, governance and block beginnings. False at the end of a block, where one auction that cannot be paid out keeps all others from being settled (C127_end_block_refuted)."
 },
 "C128": {
  "status": "partial",
  "note": "Proved apart from the counter. The last sentence is false: a tie between equal bids goes to the greater id, a hash of the counter that all collections share, so that a bid for another collection can decide who gets an NFT (C128_counter_refuted)."
 },
 "C135": {
  "status": "partial",
  "note": "Proved for the reserve auction, and for marketplace v2 apart from the last clause: a buyer may name the contract itself as recipient, which then receives an NFT that is not listed (C135_v2_never_to_itself_refuted). Marketplace v1 holds no NFTs."
 },
 "C137": {
  "status": "partial",
  "note": "The bounds are proved. The last clause is false: at a slightly higher price several fees may reach the next unit at once, so that the seller gets up to three units less (C137_v2_more_pays_more_refuted: 500 leaves 465, 501 leaves 462; C137_v1_more_pays_more_refuted: 99 leaves 97, 100 leaves 96); C137_v2_raise and C137_v1_raise prove that it is never more than three."
 },
 "C148": {
  "status": "partial",
  "note": "False: ties are broken by id, a hash (C148_bids_refuted, C148_listings_refuted). Proved instead, for every hash: of two bids at the same price the one with the greater id is traded, of two listings the one whose NFT has the smaller hash, and the book does not remember which of two NFTs was listed first."
 },
 "C149": {
  "status": "partial",
  "note": "False for limits that are multiples of 2^32 (C149_keeps_settling_refuted: the cast to usize keeps 32 bits, so such a limit settles nothing). Proved for every other limit, with the exact effect for all limits, and that all other theorems carry over to the 32-bit machine (C149_histories, C149_calls, C149_privileged_calls)."
 }
}