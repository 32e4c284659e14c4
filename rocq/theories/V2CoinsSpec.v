(** What the coins attached to a call of v2 decide (C160). *)
From Verif Require Import Base Common Chain QuerySpec V2Model V2Spec V2ExactSpec.

(** The calls that pay for an NFT or for a bid. *)
Definition paying_call (m : msg) : bool :=
  match m with
  | SetBid _ _ _ | BuySpecificNft _ _ _ | UpdateBid _ _ | SetCollectionBid _ _ | BuyCollectionNft _ _ | UpdateCollectionBid _ _
  | AcceptAsk _ _ => true
  | _ => false
  end.
(** What is in escrow for the bid that the call changes. *)
Definition stands (st : state) (m : msg) : option coin :=
  match m with
  | UpdateBid i _ => match s_bids st !! i with Some b => Some (d_price (b_det b)) | None => None end
  | UpdateCollectionBid i _ => match s_cbids st !! i with Some b => Some (d_price (cb_det b)) | None => None end
  | _ => None
  end.
(** The calls that name a resting bid. *)
Definition names_bid (i : order_id) (m : msg) : Prop :=
  m = RemoveBid i \/ exists d, m = UpdateBid i d \/ m = AcceptBid i d.
Definition names_cbid (i : order_id) (m : msg) : Prop :=
  m = RemoveCollectionBid i \/ exists d, m = UpdateCollectionBid i d \/ exists tok, m = AcceptCollectionBid i tok d.
