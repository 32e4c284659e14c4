(** Everybody withdraws (C141): the bids of marketplace v1, the call that withdraws each, and what it gives back. *)
From Verif Require Import Base Common Chain LedgerSpec V1Model V1Spec.

Inductive order := OBid (b : bid) | OCbid (b : cbid).
Definition in_book (st : state) (o : order) : Prop :=
  match o with
  | OBid b => s_bids st !! (b_coll b, b_tok b, b_bidder b) = Some b
  | OCbid b => s_cbids st !! (cb_coll b, cb_bidder b) = Some b
  end.
Definition bidder_of (o : order) : addr := match o with OBid b => b_bidder b | OCbid b => cb_bidder b end.
Definition price_of (o : order) : N := match o with OBid b => b_price b | OCbid b => cb_price b end.
(** The bidder asks for the bid back; no coins are attached. *)
Definition withdrawal (o : order) : addr * list coin * msg :=
  (bidder_of o, [], match o with OBid b => RemoveBid (b_coll b) (b_tok b) | OCbid b => RemoveCollectionBid (cb_coll b) end).
Definition held_in (d : denom) (os : list order) : N := sum_over (fun o => of_denom d (Coin "ustars" (price_of o))) os.
Definition due_to (x : addr) (d : denom) (os : list order) : N :=
  sum_over (fun o => if decide (bidder_of o = x) then of_denom d (Coin "ustars" (price_of o)) else 0) os.

(** The chain after the bids are withdrawn: they are gone and the others stay; every account has got the coins of its bids, out of the
    coins of the marketplace; nothing else has changed. *)
Record withdrawn (p : params) (w : world state) (os : list order) (w' : world state) : Prop := {
  wd_book : forall o, in_book (w_st w') o <-> in_book (w_st w) o /\ o ∉ os;
  wd_paid : forall x d, x <> p_self p -> w_bank w' x d = w_bank w x d + due_to x d os;
  wd_kept : forall d, w_bank w' (p_self p) d + held_in d os = w_bank w (p_self p) d;
  wd_nft : forall c t, w_nft w' c t = w_nft w c t;
  wd_rest : s_params (w_st w') = s_params (w_st w) /\ s_asks (w_st w') = s_asks (w_st w) /\
    s_ask_hooks (w_st w') = s_ask_hooks (w_st w) /\ s_bid_hooks (w_st w') = s_bid_hooks (w_st w) /\
    s_sale_hooks (w_st w') = s_sale_hooks (w_st w) /\ w_time w' = w_time w /\ w_height w' = w_height w;
}.
