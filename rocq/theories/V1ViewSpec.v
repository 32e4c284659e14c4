(** Whom marketplace v1 asks what (C154). *)
From stdpp Require Import pretty.
From Verif Require Import Base Common V1Model ViewSpec.

(** The collection about the NFT and about itself; other collections never.  The royalty registry and the chain are not asked. *)
Definition questions (p : params) (st : state) (m : msg) : list question :=
  match m with
  | SetAsk _ coll tok _ _ _ _ _ => [WhoOwns coll (pretty tok); AboutCollection coll; MayMove coll (pretty tok) (p_self p)]
  | RemoveAsk coll tok | UpdateAskPrice coll tok _ | RejectBid coll tok _ => [WhoOwns coll (pretty tok)]
  | SetBid coll tok _ _ _ | BuyNow coll tok _ _ _ | BuyFor coll tok _ _ _ _ =>
      (* only a purchase asks, and only a fixed-price listing is bought this way *)
      match s_asks st !! (coll, tok) with
      | Some a => if bool_decide (k_type a = FixedPrice) then [WhoOwns coll (pretty tok); AboutCollection coll] else []
      | None => []
      end
  | AcceptBid coll tok _ _ | AcceptCollectionBid coll tok _ _ => [WhoOwns coll (pretty tok); AboutCollection coll]
  | SyncAsk coll tok => [MayMove coll (pretty tok) (p_self p)]
  | RemoveStaleAsk coll tok => [WhoOwns coll (pretty tok); MayMove coll (pretty tok) (p_self p)]
  | RemoveBid _ _ | SetCollectionBid _ _ _ | RemoveCollectionBid _ | RemoveStaleBid _ _ _ | RemoveStaleCollectionBid _ _ => []
  end.
