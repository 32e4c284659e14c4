(** What one call of the reserve auction does with an NFT, read off the storage before and after it. *)
From Verif Require Import Base Common NftBooksSpec RAModel RALedgerSpec.

(** Who has a title to the NFT of an auction: the high bidder, or the seller as long as nobody bids. *)
Definition title (a : auction) : addr := match a_high a with Some hb => hb_bidder hb | None => a_seller a end.
(** A new auction takes the NFT in; an auction that is over hands it to who has the title. *)
Definition due_moves (self : addr) (st st' : state) (k : akey) : list addr :=
  match s_auctions st !! k, s_auctions st' !! k with
  | None, Some _ => [self]
  | Some a, None => [title a]
  | _, _ => []
  end.
(** Everything that was ordered for [k] in a history. *)
Definition all_moves (k : akey) (l : list entry) : list addr := concat ((fun h => moves k (e_msgs h)) <$> l).
