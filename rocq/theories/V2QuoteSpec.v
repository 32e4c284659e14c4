(** The quote is the trade (C144): what somebody who asks for the first row of the price lists is told, and how an order names its side. *)
From Verif Require Import Base Common Chain IndexRange V2Model V2Spec V2ExactSpec.

(** "The highest bid", "the lowest ask": one row, no bounds. *)
Definition highest : qopts pkey := QOpts (Some true) (Some 1) None None.
Definition lowest : qopts pkey := QOpts None (Some 1) None None.
(** The quote for selling a token: the better of the two highest bids, the one for the token at the same price. *)
Definition sale_quote (st : state) (coll : addr) (tok : token) (dn : denom) : option matching_bid :=
  match query_bids_by_token_price st coll tok dn highest, query_collection_bids_by_price st coll dn highest with
  | b :: _, [] => Some (MBid b)
  | [], cb :: _ => Some (MCBid cb)
  | b :: _, cb :: _ => if decide (c_amount (d_price (cb_det cb)) <= c_amount (d_price (b_det b))) then Some (MBid b) else Some (MCBid cb)
  | [], [] => None
  end.
(** The quote for buying any token of a collection. *)
Definition floor_quote (st : state) (coll : addr) (dn : denom) : option ask := head (query_asks_by_collection_denom st coll dn lowest).
(** The quote for buying one token: its listing, looked up by id, if it is in the denom of the buyer. *)
Definition token_quote (p : params) (st : state) (coll : addr) (tok : token) (dn : denom) : option ask :=
  match query_asks st [ask_name p coll tok] with
  | a :: _ => if decide (c_denom (d_price (a_det a)) = dn) then Some a else None
  | [] => None
  end.
(** The call sells to this bid: both orders leave the book and the payments are those of this sale. *)
Definition sold_to (p : params) (v : view) (st : state) (a : ask) (mb : matching_bid) (ask_first : bool) (st' : state) (msgs : list cmsg) : Prop :=
  exists n pre post, st' = sold st n a mb /\ msgs = pre ++ sale_sends p v (s_config st) a mb ask_first ++ post /\
    forall c t to, ~ MNft c t to ∈ pre ++ post.
(** The side of an order, the NFT it names and its limit. *)
Inductive selling (sender : addr) (p : params) (st : state) : msg -> ask -> Prop :=
  | SellingSet coll tok d : selling sender p st (SetAsk coll tok d) (Ask (ask_name p coll tok) sender coll tok d)
  | SellingNow coll tok d : selling sender p st (SellNft coll tok d) (Ask (ask_name p coll tok) sender coll tok d)
  | SellingAgain i d a : s_asks st !! i = Some a -> selling sender p st (UpdateAsk i d) (Ask i sender (a_coll a) (a_tok a) d).
Inductive buying_any (st : state) : msg -> addr -> details -> Prop :=
  | AnySet coll d : buying_any st (SetCollectionBid coll d) coll d
  | AnyNow coll d : buying_any st (BuyCollectionNft coll d) coll d
  | AnyAgain i d b : s_cbids st !! i = Some b -> buying_any st (UpdateCollectionBid i d) (cb_coll b) d.
Inductive buying_one (st : state) : msg -> addr -> token -> details -> Prop :=
  | OneSet coll tok d : buying_one st (SetBid coll tok d) coll tok d
  | OneNow coll tok d : buying_one st (BuySpecificNft coll tok d) coll tok d
  | OneAgain i d b : s_bids st !! i = Some b -> buying_one st (UpdateBid i d) (b_coll b) (b_tok b) d.
