(** C140 for marketplace v1: the data of the contract with every account renamed. *)
From Verif Require Import Base Common V1Model AlikeSpec.

Section Renamed.
Context (r : addr -> addr).
(** The account in an optional field. *)
Definition opt_renamed (o : option addr) : option addr := match o with Some x => Some (r x) | None => None end.
Definition ask_renamed (a : ask) : ask :=
  Ask (k_type a) (k_coll a) (k_tok a) (r (k_seller a)) (k_price a) (opt_renamed (k_recipient a)) (opt_renamed (k_reserve a))
      (k_finders a) (k_expires a) (k_active a).
Definition bid_renamed (b : bid) : bid := Bid (b_coll b) (b_tok b) (r (b_bidder b)) (b_price b) (b_finders b) (b_expires b).
Definition cbid_renamed (b : cbid) : cbid := CBid (cb_coll b) (r (cb_bidder b)) (cb_price b) (cb_finders b) (cb_expires b).
Definition params_renamed (c : sudo_params) : sudo_params :=
  SudoParams (sp_trading_fee c) (sp_ask_expiry c) (sp_bid_expiry c) (r <$> sp_operators c) (sp_max_finders_fee c)
             (sp_min_price c) (sp_stale c) (sp_reward c) (sp_listing_fee c).
(** Bids are stored under their bidder, so the keys change as well. *)
Definition state_renamed (st : state) : state :=
  State (params_renamed (s_params st)) (ask_renamed <$> s_asks st)
        (kmap (fun k => (fst k, r (snd k))) (bid_renamed <$> s_bids st))
        (kmap (fun k => (fst k, r (snd k))) (cbid_renamed <$> s_cbids st))
        (r <$> s_ask_hooks st) (r <$> s_bid_hooks st) (r <$> s_sale_hooks st) (r <$> s_cbid_hooks st).
(** What a hook is told. *)
Definition told_renamed (c : hook_call) : hook_call :=
  match c with
  | HAsk a act => HAsk (ask_renamed a) act
  | HSale coll tok price seller buyer => HSale coll tok price (r seller) (r buyer)
  | HBid b act => HBid (bid_renamed b) act
  | HCBid b act => HCBid (cbid_renamed b) act
  end.
Definition smsg_renamed (m : smsg) : smsg :=
  match m with SPlain m => SPlain (msg_renamed r m) | SHook h c => SHook (r h) (told_renamed c) end.
Definition call_renamed (m : msg) : msg :=
  match m with
  | SetAsk ty coll tok price recipient reserve bps expires =>
      SetAsk ty coll tok price (opt_renamed recipient) (opt_renamed reserve) bps expires
  | SetBid coll tok expires finder bps => SetBid coll tok expires (opt_renamed finder) bps
  | BuyNow coll tok expires finder bps => BuyNow coll tok expires (opt_renamed finder) bps
  | BuyFor coll tok expires finder bps to => BuyFor coll tok expires (opt_renamed finder) bps (r to)
  | AcceptBid coll tok bidder finder => AcceptBid coll tok (r bidder) (opt_renamed finder)
  | RejectBid coll tok bidder => RejectBid coll tok (r bidder)
  | AcceptCollectionBid coll tok bidder finder => AcceptCollectionBid coll tok (r bidder) (opt_renamed finder)
  | RemoveStaleBid coll tok bidder => RemoveStaleBid coll tok (r bidder)
  | RemoveStaleCollectionBid coll bidder => RemoveStaleCollectionBid coll (r bidder)
  | RemoveAsk _ _ | UpdateAskPrice _ _ _ | RemoveBid _ _ | SetCollectionBid _ _ _ | RemoveCollectionBid _
  | SyncAsk _ _ | RemoveStaleAsk _ _ => m
  end.
Definition sudo_renamed (m : sudo_msg) : sudo_msg :=
  match m with
  | UpdateParams u =>
      UpdateParams (ParamsUpdate (u_trading_fee_bps u) (u_ask_expiry u) (u_bid_expiry u)
                                 (match u_operators u with Some l => Some (r <$> l) | None => None end)
                                 (u_max_finders_fee_bps u) (u_min_price u) (u_stale u) (u_reward_bps u) (u_listing_fee u))
  | AddOperator a => AddOperator (r a)
  | RemoveOperator a => RemoveOperator (r a)
  | AddSaleHook h => AddSaleHook (r h)
  | AddAskHook h => AddAskHook (r h)
  | AddBidHook h => AddBidHook (r h)
  | RemoveSaleHook h => RemoveSaleHook (r h)
  | RemoveAskHook h => RemoveAskHook (r h)
  | RemoveBidHook h => RemoveBidHook (r h)
  | Migrate => Migrate
  end.
End Renamed.
