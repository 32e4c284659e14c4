(** First come, first served at equal prices (C148): that an order is not traded while an earlier one at the same price waits. *)
From stdpp Require Import relations.
From Verif Require Import Base Common Chain V2Model V2Spec.

(** [b1] was placed, later [b2] on the same token at the same price; somebody sells the token: if [b1] still waits then so does [b2]. *)
Definition bids_first_come (p : params) : Prop :=
  forall w1 w2 w3 w4 w5 s1 s2 s f1 f2 f coll tok d1 d2 d b1 b2,
    reachable p w1 -> run_tx p (execute p) w1 s1 f1 (SetBid coll tok d1) = Ok w2 ->
    s_bids (w_st w1) !! b_id b1 = None -> s_bids (w_st w2) !! b_id b1 = Some b1 -> rtc (v2_step p) w2 w3 ->
    run_tx p (execute p) w3 s2 f2 (SetBid coll tok d2) = Ok w4 ->
    s_bids (w_st w3) !! b_id b2 = None -> s_bids (w_st w4) !! b_id b2 = Some b2 -> s_bids (w_st w4) !! b_id b1 = Some b1 ->
    d_price d1 = d_price d2 -> run_tx p (execute p) w4 s f (SellNft coll tok d) = Ok w5 ->
    s_bids (w_st w5) !! b_id b1 = Some b1 -> s_bids (w_st w5) !! b_id b2 = Some b2.
(** [a1] was listed, later [a2] of the same collection at the same price; somebody buys out of the collection. *)
Definition listings_first_come (p : params) : Prop :=
  forall w1 w2 w3 w4 w5 s1 s2 s f1 f2 f coll tok1 tok2 d1 d2 d a1 a2,
    reachable p w1 -> run_tx p (execute p) w1 s1 f1 (SetAsk coll tok1 d1) = Ok w2 ->
    s_asks (w_st w1) !! a_id a1 = None -> s_asks (w_st w2) !! a_id a1 = Some a1 -> rtc (v2_step p) w2 w3 ->
    run_tx p (execute p) w3 s2 f2 (SetAsk coll tok2 d2) = Ok w4 ->
    s_asks (w_st w3) !! a_id a2 = None -> s_asks (w_st w4) !! a_id a2 = Some a2 -> s_asks (w_st w4) !! a_id a1 = Some a1 ->
    d_price d1 = d_price d2 -> run_tx p (execute p) w4 s f (BuyCollectionNft coll d) = Ok w5 ->
    s_asks (w_st w5) !! a_id a1 = Some a1 -> s_asks (w_st w5) !! a_id a2 = Some a2.
