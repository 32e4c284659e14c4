(** What the clock means to calls of v1 (C151). *)
From Verif Require Import Base Common Chain V1Model.

(** The expiry named by a call is still far enough away; the end of the allowed range must be a 64-bit number of nanoseconds. *)
Definition expiry_ahead (r : expiry_range) (now expires : N) : Prop :=
  now + er_min r * 1000000000 < expires /\ now + er_max r * 1000000000 <= 18446744073709551615.
(** The listing, the bid or the collection bid, if there is one, has not expired. *)
Definition ask_lives (st : state) (now : N) (coll : addr) (tok : N) : Prop :=
  forall a, s_asks st !! (coll, tok) = Some a -> now < k_expires a.
Definition bid_lives (st : state) (now : N) (coll : addr) (tok : N) (bidder : addr) : Prop :=
  forall b, s_bids st !! (coll, tok, bidder) = Some b -> now < b_expires b.
Definition cbid_lives (st : state) (now : N) (coll bidder : addr) : Prop :=
  forall b, s_cbids st !! (coll, bidder) = Some b -> now < cb_expires b.

(** The deadlines of a call. *)
Definition in_time (st : state) (now : N) (m : msg) : Prop :=
  match m with
  | SetAsk _ _ _ _ _ _ _ expires => expiry_ahead (sp_ask_expiry (s_params st)) now expires
  | UpdateAskPrice coll tok _ => ask_lives st now coll tok
  | SetBid coll tok expires _ _ | BuyNow coll tok expires _ _ | BuyFor coll tok expires _ _ _ =>
      expiry_ahead (sp_bid_expiry (s_params st)) now expires /\ ask_lives st now coll tok
  | SetCollectionBid _ expires _ => expiry_ahead (sp_bid_expiry (s_params st)) now expires
  | AcceptBid coll tok bidder _ => bid_lives st now coll tok bidder
  | AcceptCollectionBid coll _ bidder _ => cbid_lives st now coll bidder
  | RemoveAsk _ _ | RemoveBid _ _ | RejectBid _ _ _ | RemoveCollectionBid _ | SyncAsk _ _ | RemoveStaleAsk _ _ | RemoveStaleBid _ _ _
  | RemoveStaleCollectionBid _ _ => True
  end.
