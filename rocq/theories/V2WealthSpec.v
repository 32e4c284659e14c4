(** The coins of a group of accounts in v2 (C165): what it put into the contract, has in escrow, and got out. *)
From Verif Require Import Base Common Chain QuerySpec LedgerSpec V2Model V2Spec V2ExactSpec V2LedgerSpec V2QuoteSpec.

Section Group.
Context (G : addr -> bool) (d : denom).
(** What a response sends to members of the group. *)
Definition got (ms : list cmsg) : N :=
  sum_over (fun m => match m with MSend to cs => if G to then coins_of d cs else 0 | _ => 0 end) ms.
(** What is in escrow for bids of members. *)
Definition escrowed (st : state) : N :=
  total (fun _ b => if G (b_creator b) then of_denom d (d_price (b_det b)) else 0) (s_bids st) +
  total (fun _ b => if G (cb_creator b) then of_denom d (d_price (cb_det b)) else 0) (s_cbids st).
(** What a member attaches to a call. *)
Definition put (sender : addr) (funds : list coin) : N := if G sender then coins_of d funds else 0.
(** The listing fee that an outsider pays with this call. *)
Definition outside_fee (sender : addr) (funds : list coin) (m : msg) : N :=
  match m with SetAsk _ _ _ | SellNft _ _ _ => if G sender then 0 else coins_of d funds | _ => 0 end.
End Group.

(** A call in which [buyer] buys an NFT for [price]: the caller buys a listed NFT, or the caller sells to a resting bid. *)
Definition buys (p : params) (v : view) (sender : addr) (st st' : state) (ms : list cmsg) (buyer : addr) (price : coin) : Prop :=
  exists a mb (ask_first : bool), sold_to p v st a mb ask_first st' ms /\ buyer = buyer_of mb /\ price = trade_price a mb ask_first /\
    (if ask_first then s_asks st !! a_id a = Some a /\ buyer_of mb = sender else resting st mb /\ a_creator a = sender).
(** In this call no outsider buys. *)
Definition among (p : params) (G : addr -> bool) (h : entry) : Prop :=
  forall v buyer price, buys p v (en_by h) (en_before h) (en_after h) (en_msgs h) buyer price -> G buyer = true.
(** What an outsider pays for an NFT in this call: nothing, or the price at which an outsider buys. *)
Definition outside_sale (p : params) (G : addr -> bool) (d : denom) (h : entry) (n : N) : Prop :=
  n = 0 \/ exists v buyer price, buys p v (en_by h) (en_before h) (en_after h) (en_msgs h) buyer price /\ G buyer = false /\ n = of_denom d price.
