(** The books of marketplace v1 over a whole history.  Every entry is read off the storage before and after a call, its
    coins and its messages. *)
From Verif Require Import Base Common LedgerSpec V1Model.

(** One thing that happened: a call of a user, or of the chain's governance. *)
Inductive entry : Type :=
  | User (sender : addr) (funds : list coin) (m : msg) (before after : state) (msgs : list cmsg)
  | Chain (m : sudo_msg) (before after : state) (msgs : list cmsg).
Definition e_before (h : entry) : state := match h with User _ _ _ st _ _ | Chain _ st _ _ => st end.
Definition e_after (h : entry) : state := match h with User _ _ _ _ st _ | Chain _ _ st _ => st end.
Definition e_msgs (h : entry) : list cmsg := match h with User _ _ _ _ _ ms | Chain _ _ _ ms => ms end.
Inductive recorded (p : params) (x : ext) (st st' : state) : entry -> Prop :=
  | rec_user v e sender funds m msgs :
      sender <> p_self p -> execute p x v e sender funds st m = Ok (st', msgs) ->
      recorded p x st st' (User sender funds m st st' msgs)
  | rec_chain v e m msgs : sudo p v e st m = Ok (st', msgs) -> recorded p x st st' (Chain m st st' msgs).
(** Everything that happened since the contract was set up. *)
Inductive trace (p : params) (x : ext) : state -> list entry -> Prop :=
  | tr_start c st : instantiate p c = Ok st -> trace p x st []
  | tr_next st l h st' : trace p x st l -> recorded p x st st' h -> trace p x st' (l ++ [h]).

(** The calls of a buyer. *)
Definition buyers (m : msg) : bool :=
  match m with
  | SetBid _ _ _ _ _ | BuyNow _ _ _ _ _ | BuyFor _ _ _ _ _ _ | RemoveBid _ _ | SetCollectionBid _ _ _ | RemoveCollectionBid _ => true
  | _ => false
  end.
Definition own (u : addr) (h : entry) : bool :=
  match h with User s _ m _ _ _ => bool_decide (s = u) && buyers m | Chain _ _ _ _ => false end.
(** An NFT is sent. *)
Definition sells (h : entry) : bool := existsb (fun m => match m with MNft _ _ _ => true | _ => false end) (e_msgs h).
Definition stars (d : denom) (n : N) : N := of_denom d (Coin "ustars" n).

Section Books.
Context (u : addr) (d : denom).
(** What [u] has in escrow, and the prices of all listings. *)
Definition bid_worth (_ : addr * N * addr) (b : bid) : N := if decide (b_bidder b = u) then stars d (b_price b) else 0.
Definition cbid_worth (_ : addr * addr) (b : cbid) : N := if decide (cb_bidder b = u) then stars d (cb_price b) else 0.
Definition ask_worth (_ : addr * N) (a : ask) : N := stars d (k_price a).
Definition in_escrow (st : state) : N := total bid_worth (s_bids st) + total cbid_worth (s_cbids st).
(** What [u] pays in with own calls. *)
Definition paid_in (h : entry) : N :=
  match h with User _ f _ _ _ _ => if own u h then coins_of d f else 0 | Chain _ _ _ _ => 0 end.
(** The calls that return a bid of [u]: a new bid in place of an old one, or a purchase in place of a bid, by [u]; a
    removal by [u]; a rejection or a removal by others.  What they return is their first message. *)
Definition returns (h : entry) : bool :=
  match h with
  | Chain _ _ _ _ => false
  | User s _ m st _ _ =>
      match m with
      | SetBid c t _ _ _ | BuyNow c t _ _ _ | BuyFor c t _ _ _ _ =>
          bool_decide (s = u) && bool_decide (is_Some (s_bids st !! (c, t, u)))
      | SetCollectionBid c _ _ => bool_decide (s = u) && bool_decide (is_Some (s_cbids st !! (c, u)))
      | RemoveBid _ _ | RemoveCollectionBid _ => bool_decide (s = u)
      | RejectBid _ _ w | RemoveStaleBid _ _ w | RemoveStaleCollectionBid _ w => bool_decide (w = u)
      | _ => false
      end
  end.
Definition paid_back (h : entry) : N := if returns h then sent_to u d (take 1 (e_msgs h)) else 0.
(** What [u] spends: in own calls the price of the listing that leaves the book; in calls of others that send an NFT,
    the bids of [u] that leave the book. *)
Definition spent (h : entry) : N :=
  if own u h then gone ask_worth (s_asks (e_before h)) (s_asks (e_after h))
  else if sells h then gone bid_worth (s_bids (e_before h)) (s_bids (e_after h)) +
                       gone cbid_worth (s_cbids (e_before h)) (s_cbids (e_after h))
  else 0.
(** What the operator who removes a stale bid of [u] keeps of it: all messages after the first. *)
Definition rewarded (h : entry) : N :=
  match h with
  | User _ _ (RemoveStaleBid _ _ w) _ _ ms | User _ _ (RemoveStaleCollectionBid _ w) _ _ ms =>
      if decide (w = u) then leaving d (drop 1 ms) else 0
  | _ => 0
  end.
End Books.

(** All coins in and out, all bids, and the number of sales. *)
Definition comes_in (d : denom) (h : entry) : N := match h with User _ f _ _ _ _ => coins_of d f | Chain _ _ _ _ => 0 end.
Definition goes_out (d : denom) (h : entry) : N := leaving d (e_msgs h).
Definition all_bids (d : denom) (st : state) : N :=
  total (fun _ b => stars d (b_price b)) (s_bids st) + total (fun _ b => stars d (cb_price b)) (s_cbids st).
Definition sale_count (h : entry) : N := if sells h then 1 else 0.

(** A purchase in an own call: a fixed-price listing leaves the book for its price, and the NFT goes to the caller or who
    is named in the call. *)
Definition nft_for (u : addr) (m : msg) : addr := match m with BuyFor _ _ _ _ _ to => to | _ => u end.
Definition purchase (u : addr) (h : entry) (a : ask) : Prop :=
  match h with
  | Chain _ _ _ _ => False
  | User _ f m st st' ms =>
      s_asks st !! (k_coll a, k_tok a) = Some a /\ s_asks st' = delete (k_coll a, k_tok a) (s_asks st) /\
      k_type a = FixedPrice /\ f = [Coin "ustars" (k_price a)] /\
      MNft (k_coll a) (tok_str (k_tok a)) (nft_for u m) ∈ ms
  end.
