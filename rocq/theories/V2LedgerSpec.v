(** The books of marketplace v2 over a whole history.  Every entry is read off the storage before and after a call, its
    coins and its messages. *)
From Verif Require Import Base Common LedgerSpec V2Model.

(** One successful call. *)
Record entry : Type := Entry {
  en_by : addr;
  en_funds : list coin;
  en_msg : msg;
  en_before : state;
  en_after : state;
  en_msgs : list cmsg;
}.
(** Everything that happened since the contract was set up. *)
Inductive trace (p : params) : state -> list entry -> Prop :=
  | tr_start c st : instantiate p c = Ok st -> trace p st []
  | tr_next st l v e sender funds m st' msgs :
      trace p st l -> sender <> p_self p -> execute p v e sender funds st m = Ok (st', msgs) ->
      trace p st' (l ++ [Entry sender funds m st st' msgs]).

(** The calls of a buyer. *)
Definition bid_side (m : msg) : bool :=
  match m with
  | AcceptAsk _ _ | SetBid _ _ _ | UpdateBid _ _ | RemoveBid _ | SetCollectionBid _ _ | UpdateCollectionBid _ _
  | RemoveCollectionBid _ | BuySpecificNft _ _ _ | BuyCollectionNft _ _ => true
  | _ => false
  end.
Definition own (u : addr) (h : entry) : bool := bool_decide (en_by h = u) && bid_side (en_msg h).

Section Books.
Context (u : addr) (d : denom).
(** What [u] has in escrow. *)
Definition bid_worth (_ : order_id) (b : bid) : N := if decide (b_creator b = u) then of_denom d (d_price (b_det b)) else 0.
Definition cbid_worth (_ : order_id) (b : cbid) : N := if decide (cb_creator b = u) then of_denom d (d_price (cb_det b)) else 0.
Definition in_escrow (st : state) : N := total bid_worth (s_bids st) + total cbid_worth (s_cbids st).
(** What [u] pays in with own calls, and what these return: whatever follows the NFT transfer, if there is one. *)
Definition paid_in (h : entry) : N := if own u h then coins_of d (en_funds h) else 0.
Definition paid_back (h : entry) : N := if own u h then sent_to u d (after_nft (en_msgs h)) else 0.
(** What [u] spends: in own calls all that leaves the contract up to the NFT transfer; in calls of others the bids of
    [u] that leave the book. *)
Definition spent (h : entry) : N :=
  if own u h then leaving d (upto_nft (en_msgs h))
  else gone bid_worth (s_bids (en_before h)) (s_bids (en_after h)) + gone cbid_worth (s_cbids (en_before h)) (s_cbids (en_after h)).
End Books.

(** All coins in and out, all bids, and coins attached to calls that do not look at them. *)
Definition comes_in (d : denom) (h : entry) : N := coins_of d (en_funds h).
Definition goes_out (d : denom) (h : entry) : N := leaving d (en_msgs h).
Definition all_bids (d : denom) (st : state) : N :=
  total (fun _ b => of_denom d (d_price (b_det b))) (s_bids st) + total (fun _ b => of_denom d (d_price (cb_det b))) (s_cbids st).
Definition stray (d : denom) (h : entry) : N :=
  match en_msg h with
  | UpdateConfig _ | UpdateCollectionDenom _ _ | SetListingFee _ | RemoveListingFee _
  | AcceptBid _ _ | AcceptCollectionBid _ _ _ => coins_of d (en_funds h)
  | _ => 0
  end.
(** The listing fee that a call pays. *)
Definition listing_paid (d : denom) (h : entry) : N :=
  match en_msg h with SetAsk _ _ _ | SellNft _ _ _ => coins_of d (en_funds h) | _ => 0 end.
Definition to_whom (creator : addr) (d : details) : addr := match d_recipient d with Some r => r | None => creator end.
(** A purchase in an own call: a listing leaves the book, its price is all that leaves the contract up to the NFT
    transfer, and the NFT goes to who is named in the call. *)
Definition named (m : msg) : option details :=
  match m with
  | AcceptAsk _ d | SetBid _ _ d | UpdateBid _ d | SetCollectionBid _ d | UpdateCollectionBid _ d
  | BuySpecificNft _ _ d | BuyCollectionNft _ d => Some d
  | _ => None
  end.
Definition purchase (u : addr) (h : entry) (a : ask) : Prop :=
  s_asks (en_before h) !! a_id a = Some a /\ s_asks (en_after h) !! a_id a = None /\
  (forall d, leaving d (upto_nft (en_msgs h)) = of_denom d (d_price (a_det a))) /\
  exists dt, named (en_msg h) = Some dt /\ last (upto_nft (en_msgs h)) = Some (MNft (a_coll a) (a_tok a) (to_whom u dt)).
