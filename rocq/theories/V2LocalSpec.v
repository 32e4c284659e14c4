(** What a call of marketplace v2 may look at and change: everything it needs of the book belongs to one collection. *)
From stdpp Require Import relations.
From Verif Require Import Base Common Chain V2Model V2Spec V2ExactSpec.

(** The collection an order call is about: the one it names, or the one of the order it names. *)
Definition market (st : state) (m : msg) : option addr :=
  match m with
  | SetAsk coll _ _ | SetBid coll _ _ | SetCollectionBid coll _ | SellNft coll _ _ | BuySpecificNft coll _ _
  | BuyCollectionNft coll _ => Some coll
  | RemoveAsk i | UpdateAsk i _ | AcceptAsk i _ => a_coll <$> s_asks st !! i
  | RemoveBid i | UpdateBid i _ | AcceptBid i _ => b_coll <$> s_bids st !! i
  | RemoveCollectionBid i | UpdateCollectionBid i _ | AcceptCollectionBid i _ _ => cb_coll <$> s_cbids st !! i
  | UpdateConfig _ | UpdateCollectionDenom _ _ | SetListingFee _ | RemoveListingFee _ => None
  end.
(** The same rules and the same orders for a collection; the counter and other collections may differ. *)
Definition same_market (coll : addr) (st st0 : state) : Prop :=
  s_config st = s_config st0 /\ s_fees st = s_fees st0 /\ s_denoms st !! coll = s_denoms st0 !! coll /\
  (forall i a, a_coll a = coll -> s_asks st !! i = Some a <-> s_asks st0 !! i = Some a) /\
  (forall i b, b_coll b = coll -> s_bids st !! i = Some b <-> s_bids st0 !! i = Some b) /\
  (forall i b, cb_coll b = coll -> s_cbids st !! i = Some b <-> s_cbids st0 !! i = Some b).
(** Calls that may put a new bid into the book, whose id contains the counter. *)
Definition numbers (m : msg) : bool := match m with SetBid _ _ _ | SetCollectionBid _ _ => true | _ => false end.

(** Calls that move the counter: those that make a bid, kept or not. *)
Definition counts (m : msg) : bool :=
  match m with
  | SetBid _ _ _ | SetCollectionBid _ _ | BuySpecificNft _ _ _ | BuyCollectionNft _ _ | AcceptAsk _ _ => true
  | _ => false
  end.

(** A history of [n] successful calls whose amounts are 128-bit numbers. *)
Definition small_step (p : params) (st st' : state) : Prop :=
  exists v e sender funds m msgs, sender <> p_self p /\ small_call funds m /\ execute p v e sender funds st m = Ok (st', msgs).
Definition ran (p : params) (n : nat) (st : state) : Prop :=
  exists c st0, instantiate p c = Ok st0 /\ nsteps (small_step p) n st0 st.

(** A list of calls that all succeed. *)
Definition play : Type := view * env * addr * list coin * msg.
Definition sane (p : params) (c : play) : Prop := c.1.1.2 <> p_self p /\ small_call c.1.2 c.2.
Fixpoint played (p : params) (st : state) (l : list play) : result state :=
  match l with
  | [] => Ok st
  | (v, e, s, f, m) :: l => r ← execute p v e s f st m; played p r.1 l
  end.

(** Two runs of the contract side by side that treat a collection alike: they make the same calls of its market (at the
    same value of the counter if a bid may be numbered) and the same calls of the admin, and each any other calls. *)
Inductive twins (p : params) (coll : addr) : nat -> state -> nat -> state -> Prop :=
  | twin_start n st : ran p n st -> twins p coll n st n st
  | twin_call n st n0 st0 v e sender funds m st' msgs st0' msgs0 :
      twins p coll n st n0 st0 -> sender <> p_self p -> small_call funds m ->
      (admin_call m = true \/ market st m = Some coll) -> (numbers m = true -> s_nonce st = s_nonce st0) ->
      execute p v e sender funds st m = Ok (st', msgs) -> execute p v e sender funds st0 m = Ok (st0', msgs0) ->
      twins p coll (S n) st' (S n0) st0'
  | twin_left n st n0 st0 v e sender funds m st' msgs :
      twins p coll n st n0 st0 -> sender <> p_self p -> small_call funds m ->
      admin_call m = false -> market st m <> Some coll ->
      execute p v e sender funds st m = Ok (st', msgs) -> twins p coll (S n) st' n0 st0
  | twin_right n st n0 st0 v e sender funds m st0' msgs :
      twins p coll n st n0 st0 -> sender <> p_self p -> small_call funds m ->
      admin_call m = false -> market st0 m <> Some coll ->
      execute p v e sender funds st0 m = Ok (st0', msgs) -> twins p coll n st (S n0) st0'.
