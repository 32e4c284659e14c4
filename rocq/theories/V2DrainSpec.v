(** Everybody withdraws (C141): the resting orders of marketplace v2, the call that withdraws each, and what it gives back. *)
From Verif Require Import Base Common Chain LedgerSpec V2Model V2Spec.

Inductive order := OAsk (i : order_id) (a : ask) | OBid (i : order_id) (b : bid) | OCbid (i : order_id) (c : cbid).
(** The order is in the book. *)
Definition in_book (st : state) (o : order) : Prop :=
  match o with OAsk i a => s_asks st !! i = Some a | OBid i b => s_bids st !! i = Some b | OCbid i c => s_cbids st !! i = Some c end.
(** Its creator asks for it back; no coins are attached. *)
Definition withdrawal (o : order) : addr * list coin * msg :=
  match o with
  | OAsk i a => (a_creator a, [], RemoveAsk i)
  | OBid i b => (b_creator b, [], RemoveBid i)
  | OCbid i c => (cb_creator c, [], RemoveCollectionBid i)
  end.
(** Coins go to an account that takes them; the collection of an ask is not the marketplace itself. *)
Definition returnable (p : params) (o : order) : Prop :=
  match o with
  | OAsk _ a => a_coll a <> p_self p
  | OBid _ b => p_blocked p (b_creator b) = false
  | OCbid _ c => p_blocked p (cb_creator c) = false
  end.
(** The coins of one order, and the part of them that belongs to an account. *)
Definition held_for (d : denom) (o : order) : N :=
  match o with OAsk _ _ => 0 | OBid _ b => in_denom d (d_price (b_det b)) | OCbid _ c => in_denom d (d_price (cb_det c)) end.
Definition belongs_to (x : addr) (o : order) : bool :=
  match o with OAsk _ _ => false | OBid _ b => bool_decide (b_creator b = x) | OCbid _ c => bool_decide (cb_creator c = x) end.
Definition held_in (d : denom) (os : list order) : N := sum_over (held_for d) os.
Definition due_to (x : addr) (d : denom) (os : list order) : N := sum_over (fun o => if belongs_to x o then held_for d o else 0) os.

(** The chain after the orders are withdrawn: they are gone and the others stay; every account has got the coins of its bids, out of the
    coins of the marketplace; the NFTs of standard collections are with the sellers or those they named; nothing else has changed. *)
Record withdrawn (p : params) (w : world state) (os : list order) (w' : world state) : Prop := {
  wd_book : forall o, in_book (w_st w') o <-> in_book (w_st w) o /\ o ∉ os;
  wd_paid : forall x d, x <> p_self p -> w_bank w' x d = w_bank w x d + due_to x d os;
  wd_kept : forall d, w_bank w' (p_self p) d + held_in d os = w_bank w (p_self p) d;
  wd_nft : forall i a, OAsk i a ∈ os -> p_honest p (a_coll a) = true -> w_nft w' (a_coll a) (a_tok a) = Some (proceeds_to a);
  wd_other : forall c t, (forall i a, OAsk i a ∈ os -> a_coll a = c -> a_tok a = t -> False) -> w_nft w' c t = w_nft w c t;
  wd_rest : s_config (w_st w') = s_config (w_st w) /\ s_denoms (w_st w') = s_denoms (w_st w) /\
    s_fees (w_st w') = s_fees (w_st w) /\ s_nonce (w_st w') = s_nonce (w_st w) /\ w_time w' = w_time w /\ w_height w' = w_height w;
}.
