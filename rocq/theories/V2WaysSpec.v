(** The ways to trade (C146): which calls buy and which sell, and the plain call that does the same. *)
From Verif Require Import Base Common Chain V2Model V2Spec.

(** A call by which somebody buys out of the listings, with its details. *)
Inductive buying : msg -> details -> Prop :=
  | BuyAccept i d : buying (AcceptAsk i d) d
  | BuySet coll tok d : buying (SetBid coll tok d) d
  | BuyNow coll tok d : buying (BuySpecificNft coll tok d) d
  | BuySetAny coll d : buying (SetCollectionBid coll d) d
  | BuyAny coll d : buying (BuyCollectionNft coll d) d.
(** A call by which an owner offers an NFT that is not listed yet. *)
Inductive offering : msg -> addr -> token -> details -> Prop :=
  | OfferSet coll tok d : offering (SetAsk coll tok d) coll tok d
  | OfferNow coll tok d : offering (SellNft coll tok d) coll tok d.
(** Accepting the bid [mb] for the NFT. *)
Definition accepting (mb : matching_bid) (tok : token) (d : details) : msg :=
  match mb with MBid b => AcceptBid (b_id b) d | MCBid cb => AcceptCollectionBid (cb_id cb) tok d end.
(** Details that name the same accounts. *)
Definition same_names (d d' : details) : Prop := d_recipient d = d_recipient d' /\ d_finder d = d_finder d'.
