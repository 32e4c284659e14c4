(** C140 for marketplace v2: the data of the contract with every account renamed. *)
From Verif Require Import Base Common V2Model AlikeSpec.

Section Renamed.
Context (r : addr -> addr).
(** The account in an optional field. *)
Definition opt_renamed (o : option addr) : option addr := match o with Some x => Some (r x) | None => None end.
Definition details_renamed (d : details) : details := Details (d_price d) (opt_renamed (d_recipient d)) (opt_renamed (d_finder d)).
(** Orders keep their ids: those are made of collection, token, height and nonce. *)
Definition ask_renamed (a : ask) : ask := Ask (a_id a) (r (a_creator a)) (a_coll a) (a_tok a) (details_renamed (a_det a)).
Definition bid_renamed (b : bid) : bid := Bid (b_id b) (r (b_creator b)) (b_coll b) (b_tok b) (details_renamed (b_det b)).
Definition cbid_renamed (b : cbid) : cbid := CBid (cb_id b) (r (cb_creator b)) (cb_coll b) (details_renamed (cb_det b)).
(** The fee manager is an account like any other; the royalty registry is a contract and keeps its name. *)
Definition config_renamed (c : config) : config :=
  Config (r (cf_fee_manager c)) (cf_registry c) (cf_protocol_bps c) (cf_max_royalty_bps c) (cf_maker_bps c) (cf_taker_bps c)
         (cf_default_denom c).
Definition state_renamed (st : state) : state :=
  State (config_renamed (s_config st)) (s_denoms st) (s_fees st) (s_nonce st) (ask_renamed <$> s_asks st)
        (bid_renamed <$> s_bids st) (cbid_renamed <$> s_cbids st).
Definition call_renamed (m : msg) : msg :=
  match m with
  | UpdateConfig c => UpdateConfig (config_renamed c)
  | UpdateCollectionDenom coll dn => UpdateCollectionDenom coll dn
  | SetListingFee f => SetListingFee f
  | RemoveListingFee dn => RemoveListingFee dn
  | SetAsk coll tok d => SetAsk coll tok (details_renamed d)
  | RemoveAsk id => RemoveAsk id
  | UpdateAsk id d => UpdateAsk id (details_renamed d)
  | AcceptAsk id d => AcceptAsk id (details_renamed d)
  | SetBid coll tok d => SetBid coll tok (details_renamed d)
  | RemoveBid id => RemoveBid id
  | UpdateBid id d => UpdateBid id (details_renamed d)
  | AcceptBid id d => AcceptBid id (details_renamed d)
  | SetCollectionBid coll d => SetCollectionBid coll (details_renamed d)
  | RemoveCollectionBid id => RemoveCollectionBid id
  | UpdateCollectionBid id d => UpdateCollectionBid id (details_renamed d)
  | AcceptCollectionBid id tok d => AcceptCollectionBid id tok (details_renamed d)
  | SellNft coll tok d => SellNft coll tok (details_renamed d)
  | BuySpecificNft coll tok d => BuySpecificNft coll tok (details_renamed d)
  | BuyCollectionNft coll d => BuyCollectionNft coll (details_renamed d)
  end.
End Renamed.
