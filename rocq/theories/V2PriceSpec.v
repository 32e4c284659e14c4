(** Naming one's best price (C143): the same call with another limit. *)
From Verif Require Import Base Common Chain V2Model V2Spec.

Definition with_amount (n : N) (d : details) : details := Details (Coin (c_denom (d_price d)) n) (d_recipient d) (d_finder d).
Definition with_limit (n : N) (m : msg) : msg :=
  match m with
  | SetAsk coll tok d => SetAsk coll tok (with_amount n d)
  | UpdateAsk i d => UpdateAsk i (with_amount n d)
  | AcceptAsk i d => AcceptAsk i (with_amount n d)
  | SetBid coll tok d => SetBid coll tok (with_amount n d)
  | UpdateBid i d => UpdateBid i (with_amount n d)
  | AcceptBid i d => AcceptBid i (with_amount n d)
  | SetCollectionBid coll d => SetCollectionBid coll (with_amount n d)
  | UpdateCollectionBid i d => UpdateCollectionBid i (with_amount n d)
  | AcceptCollectionBid i tok d => AcceptCollectionBid i tok (with_amount n d)
  | SellNft coll tok d => SellNft coll tok (with_amount n d)
  | BuySpecificNft coll tok d => BuySpecificNft coll tok (with_amount n d)
  | BuyCollectionNft coll d => BuyCollectionNft coll (with_amount n d)
  | _ => m
  end.
(** The most a buyer is willing to pay. *)
Definition at_most (m : msg) : option N :=
  match m with
  | AcceptAsk _ d | SetBid _ _ d | UpdateBid _ d | SetCollectionBid _ d | UpdateCollectionBid _ d
  | BuySpecificNft _ _ d | BuyCollectionNft _ d => Some (c_amount (d_price d))
  | _ => None
  end.
(** The least a seller is willing to take. *)
Definition at_least (m : msg) : option N :=
  match m with
  | SetAsk _ _ d | UpdateAsk _ d | SellNft _ _ d | AcceptBid _ d | AcceptCollectionBid _ _ d => Some (c_amount (d_price d))
  | _ => None
  end.
