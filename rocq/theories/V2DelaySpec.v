(** What the clock and the height mean to calls of v2 (C150). *)
From Verif Require Import Base Common Chain V2Model V2Spec.

(** The calls that place a new order name its collection; only these ask whether trading has started. *)
Definition new_order_in (m : msg) : option addr :=
  match m with
  | SetAsk coll _ _ | SellNft coll _ _ | SetBid coll _ _ | BuySpecificNft coll _ _ | SetCollectionBid coll _ | BuyCollectionNft coll _ => Some coll
  | _ => None
  end.
(** The clock is no obstacle to the call. *)
Definition trading_open (v : view) (e : env) (m : msg) : Prop :=
  forall coll, new_order_in m = Some coll -> ~ not_yet_tradable v e coll.

(** Two storages reached from [st] that agree in everything but the name of one bid that [st] does not have. *)
Inductive same_but_name (st : state) : state -> state -> Prop :=
  | same_all s : same_but_name st s s
  | same_but_bid n i j who coll tok d : s_bids st !! i = None -> s_bids st !! j = None ->
      same_but_name st
        (State (s_config st) (s_denoms st) (s_fees st) n (s_asks st) (<[i := Bid i who coll tok d]> (s_bids st)) (s_cbids st))
        (State (s_config st) (s_denoms st) (s_fees st) n (s_asks st) (<[j := Bid j who coll tok d]> (s_bids st)) (s_cbids st))
  | same_but_cbid n i j who coll d : s_cbids st !! i = None -> s_cbids st !! j = None ->
      same_but_name st
        (State (s_config st) (s_denoms st) (s_fees st) n (s_asks st) (s_bids st) (<[i := CBid i who coll d]> (s_cbids st)))
        (State (s_config st) (s_denoms st) (s_fees st) n (s_asks st) (s_bids st) (<[j := CBid j who coll d]> (s_cbids st))).
