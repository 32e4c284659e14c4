(** The order calls of marketplace v2 written as a transition relation: for each call its exact conditions, the exact
    new storage and the exact messages.  Nothing here mentions the handlers or their helpers; the words come from
    V2Spec, and only sums, byte order, the hash and big-endian numbers are used besides. *)
From stdpp Require Import relations.
From Verif Require Import Base Common Chain ChainFacts QuerySpec V2Model V2Spec.

(** * Amounts are 128-bit numbers ([Uint128]) *)
Definition small (c : coin) : Prop := c_amount c <= 340282366920938463463374607431768211455.
(** The coin named in a message. *)
Definition msg_coin (m : msg) : option coin :=
  match m with
  | SetAsk _ _ d | UpdateAsk _ d | AcceptAsk _ d | SetBid _ _ d | UpdateBid _ d | AcceptBid _ d
  | SetCollectionBid _ d | UpdateCollectionBid _ d | AcceptCollectionBid _ _ d
  | SellNft _ _ d | BuySpecificNft _ _ d | BuyCollectionNft _ d => Some (d_price d)
  | SetListingFee c => Some c
  | _ => None
  end.
Definition small_call (funds : list coin) (m : msg) : Prop :=
  Forall small funds /\ forall c, msg_coin m = Some c -> small c.
(** Histories of calls whose amounts are 128-bit numbers, as all calls on a chain are. *)
Definition small_history (p : params) (st : state) : Prop :=
  exists c st0, instantiate p c = Ok st0 /\
    rtc (fun s s' => exists v e sender funds m msgs,
           sender <> p_self p /\ small_call funds m /\ execute p v e sender funds s m = Ok (s', msgs)) st0 st.

(** * Payment and change *)
(** The change: for every denom what is left of [held] after [price] was taken, no coin without value, the denoms in
    strictly increasing byte order. *)
Definition change_of (held : denom -> N) (price : coin) (cs : list coin) : Prop :=
  (forall d, coins_in cs d + in_denom d price = held d) /\ Forall (fun c => 0 < c_amount c) cs /\
  StronglySorted (fun x y => id_before (c_denom x) (c_denom y)) cs.
Definition returned (sender : addr) (cs : list coin) : list cmsg :=
  match cs with [] => [] | _ => [MSend sender cs] end.
(** [price] is paid out of the attached coins and of what was in escrow ([old]); [back] returns the change.  No sum
    of coins of one denom exceeds 128 bits. *)
Definition pays (sender : addr) (funds : list coin) (old : option coin) (price : coin) (back : list cmsg) : Prop :=
  (forall d, coins_in funds d + opt_in_denom d old <= 340282366920938463463374607431768211455) /\
  exists cs, change_of (fun d => coins_in funds d + opt_in_denom d old) price cs /\ back = returned sender cs.

(** * Matching, with all ties decided *)
Definition bid_name (mb : matching_bid) : string := match mb with MBid b => b_id b | MCBid cb => cb_id cb end.
(** [mb] comes before [mb']: the higher price; at the same price a bid for the token before one for the collection;
    between bids of one kind the greater id. *)
Definition outranks (mb mb' : matching_bid) : Prop :=
  c_amount (price_of mb') < c_amount (price_of mb) \/
  (c_amount (price_of mb') = c_amount (price_of mb) /\
   match mb, mb' with
   | MBid _, MCBid _ => True
   | MCBid _, MBid _ => False
   | _, _ => id_before (bid_name mb') (bid_name mb)
   end).
Definition top_bid (st : state) (coll : addr) (tok : token) (price : coin) (mb : matching_bid) : Prop :=
  fits st coll tok price mb /\ forall mb', fits st coll tok price mb' -> mb' = mb \/ outranks mb mb'.
(** The listing a bid takes: the lowest price, and at the same price the smallest id. *)
Definition first_ask (st : state) (coll : addr) (tok : option token) (price : coin) (a : ask) : Prop :=
  offered st coll tok price a /\ forall a', offered st coll tok price a' -> a' = a \/ price_before (ask_key a) (ask_key a').

(** * A sale *)
(** The registry answers, an advertised royalty that it does not know yet names a real address, and all dues can be
    paid out of the price. *)
Definition sale_goes (p : params) (v : view) (cfg : config) (a : ask) (mb : matching_bid) (ask_first : bool) : Prop :=
  (exists r, q_royalty v (cf_registry cfg) (a_coll a) (Some (p_self p)) = Ok r) /\
  (q_royalty v (cf_registry cfg) (a_coll a) (Some (p_self p)) = Ok (None, None) ->
   forall ci pa sh, q_info v (a_coll a) = Some ci -> ci_royalty ci = Some (pa, sh) -> p_valid p pa = true) /\
  total_dues (sale_dues p v cfg a mb ask_first) <= c_amount (trade_price a mb ask_first).
(** The registry is told about a royalty it does not know. *)
Definition registration (p : params) (v : view) (cfg : config) (coll : addr) : list cmsg :=
  match q_royalty v (cf_registry cfg) coll (Some (p_self p)), q_info v coll with
  | Ok (None, None), Some ci => match ci_royalty ci with Some _ => [MRegInit (cf_registry cfg) coll] | None => [] end
  | _, _ => []
  end.
Definition sale_sends (p : params) (v : view) (cfg : config) (a : ask) (mb : matching_bid) (ask_first : bool) : list cmsg :=
  registration p v cfg (a_coll a) ++
  (send_one (c_denom (trade_price a mb ask_first)) <$> sale_payments p v cfg a mb ask_first) ++
  [MNft (a_coll a) (a_tok a) (nft_to mb)].

(** * Storage *)
Definition with_asks (st : state) (x : gmap order_id ask) : state :=
  State (s_config st) (s_denoms st) (s_fees st) (s_nonce st) x (s_bids st) (s_cbids st).
Definition with_bids (st : state) (n : N) (x : gmap order_id bid) : state :=
  State (s_config st) (s_denoms st) (s_fees st) n (s_asks st) x (s_cbids st).
Definition with_cbids (st : state) (n : N) (x : gmap order_id cbid) : state :=
  State (s_config st) (s_denoms st) (s_fees st) n (s_asks st) (s_bids st) x.
(** The two traded orders leave the book. *)
Definition sold (st : state) (n : N) (a : ask) (mb : matching_bid) : state :=
  State (s_config st) (s_denoms st) (s_fees st) n (delete (a_id a) (s_asks st))
    (match mb with MBid b => delete (b_id b) (s_bids st) | MCBid _ => s_bids st end)
    (match mb with MBid _ => s_cbids st | MCBid cb => delete (cb_id cb) (s_cbids st) end).
(** The counter of bids, a 64-bit number that starts again at 0. *)
Definition next_count (st : state) : N := (s_nonce st + 1) mod 18446744073709551616.
(** Ids are hashes of what is named; bids also of the height and the counter. *)
Definition ask_name (p : params) (coll : addr) (tok : token) : order_id := p_hash p (coll +:+ tok).
Definition bid_name_of (p : params) (e : env) (st : state) (what : string) : order_id :=
  p_hash p (what +:+ be8 (e_height e) +:+ be8 (next_count st)).

(** * The calls *)
Section Does.
Context (p : params) (v : view) (e : env) (sender : addr) (funds : list coin) (st : state).

(** A failed owner query counts as ownership (nft.rs:31-56). *)
Definition may_sell (coll : addr) (tok : token) : Prop := q_owner v coll tok = Some sender \/ q_owner v coll tok = None.
Definition opening (coll : addr) (d : details) : Prop :=
  p_valid p coll = true /\ named_ok p d /\ ~ not_yet_tradable v e coll /\ priced st coll (d_price d).
Definition listing (coll : addr) (tok : token) (d : details) : Prop :=
  opening coll d /\ may_sell coll tok /\
  exists dn n, funds = [Coin dn n] /\ 0 < n /\ s_fees st !! dn = Some n.
(** The ask sold by somebody who accepts a bid: their own listing, or the NFT itself if it is not listed. *)
Definition sellable (coll : addr) (tok : token) (d : details) (a : ask) : Prop :=
  (s_asks st !! a_id a = Some a /\ a_coll a = coll /\ a_tok a = tok /\ a_creator a = sender) \/
  (unlisted st coll tok /\ may_sell coll tok /\ a = Ask (ask_name p coll tok) sender coll tok d).
(** The price asked of an accepted bid is met. *)
Definition met_by (price bid : coin) : Prop := c_denom price = c_denom bid /\ c_amount price <= c_amount bid.

Inductive does : msg -> state -> list cmsg -> Prop :=
  | DoList coll tok d :
      listing coll tok d -> (forall mb, ~ fits st coll tok (d_price d) mb) ->
      s_asks st !! ask_name p coll tok = None ->
      does (SetAsk coll tok d)
        (with_asks st (<[ask_name p coll tok := Ask (ask_name p coll tok) sender coll tok d]> (s_asks st)))
        [MSend (cf_fee_manager (s_config st)) funds; MNft coll tok (p_self p)]
  | DoListSell m coll tok d mb a :
      m = SetAsk coll tok d \/ m = SellNft coll tok d ->
      listing coll tok d -> a = Ask (ask_name p coll tok) sender coll tok d ->
      top_bid st coll tok (d_price d) mb -> sale_goes p v (s_config st) a mb false ->
      does m (sold st (s_nonce st) a mb)
        (MSend (cf_fee_manager (s_config st)) funds :: sale_sends p v (s_config st) a mb false)
  | DoUpdateAsk i d a :
      funds = [] -> s_asks st !! i = Some a -> a_creator a = sender -> named_ok p d -> priced st (a_coll a) (d_price d) ->
      (forall mb, ~ fits st (a_coll a) (a_tok a) (d_price d) mb) ->
      does (UpdateAsk i d) (with_asks st (<[i := Ask i sender (a_coll a) (a_tok a) d]> (s_asks st))) []
  | DoUpdateAskSell i d a0 a mb :
      funds = [] -> s_asks st !! i = Some a0 -> a_creator a0 = sender -> named_ok p d -> priced st (a_coll a0) (d_price d) ->
      a = Ask i sender (a_coll a0) (a_tok a0) d -> top_bid st (a_coll a) (a_tok a) (d_price d) mb ->
      sale_goes p v (s_config st) a mb false ->
      does (UpdateAsk i d) (sold st (s_nonce st) a mb) (sale_sends p v (s_config st) a mb false)
  | DoRemoveAsk i a :
      funds = [] -> s_asks st !! i = Some a -> a_creator a = sender ->
      does (RemoveAsk i) (with_asks st (delete i (s_asks st))) [MNft (a_coll a) (a_tok a) (proceeds_to a)]
  | DoAcceptAsk i d a b back :
      s_asks st !! i = Some a -> named_ok p d -> met_by (d_price (a_det a)) (d_price d) ->
      pays sender funds None (d_price (a_det a)) back ->
      b = Bid (bid_name_of p e st (a_coll a +:+ a_tok a)) sender (a_coll a) (a_tok a) d ->
      sale_goes p v (s_config st) a (MBid b) true ->
      does (AcceptAsk i d) (sold st (next_count st) a (MBid b)) (sale_sends p v (s_config st) a (MBid b) true ++ back)
  | DoBid coll tok d b back :
      opening coll d -> (forall a, ~ offered st coll (Some tok) (d_price d) a) ->
      b = Bid (bid_name_of p e st (coll +:+ tok)) sender coll tok d -> s_bids st !! b_id b = None ->
      pays sender funds None (d_price d) back ->
      does (SetBid coll tok d) (with_bids st (next_count st) (<[b_id b := b]> (s_bids st))) back
  | DoBidBuy m coll tok d b a back :
      m = SetBid coll tok d \/ m = BuySpecificNft coll tok d ->
      opening coll d -> first_ask st coll (Some tok) (d_price d) a ->
      pays sender funds None (d_price (a_det a)) back ->
      b = Bid (bid_name_of p e st (coll +:+ tok)) sender coll tok d -> sale_goes p v (s_config st) a (MBid b) true ->
      does m (sold st (next_count st) a (MBid b)) (sale_sends p v (s_config st) a (MBid b) true ++ back)
  | DoUpdateBid i d b back :
      s_bids st !! i = Some b -> b_creator b = sender -> named_ok p d -> priced st (b_coll b) (d_price d) ->
      (forall a, ~ offered st (b_coll b) (Some (b_tok b)) (d_price d) a) ->
      pays sender funds (Some (d_price (b_det b))) (d_price d) back ->
      does (UpdateBid i d) (with_bids st (s_nonce st) (<[i := Bid i sender (b_coll b) (b_tok b) d]> (s_bids st))) back
  | DoUpdateBidBuy i d b0 b a back :
      s_bids st !! i = Some b0 -> b_creator b0 = sender -> named_ok p d -> priced st (b_coll b0) (d_price d) ->
      first_ask st (b_coll b0) (Some (b_tok b0)) (d_price d) a ->
      pays sender funds (Some (d_price (b_det b0))) (d_price (a_det a)) back ->
      b = Bid i sender (b_coll b0) (b_tok b0) d -> sale_goes p v (s_config st) a (MBid b) true ->
      does (UpdateBid i d) (sold st (s_nonce st) a (MBid b)) (sale_sends p v (s_config st) a (MBid b) true ++ back)
  | DoRemoveBid i b :
      funds = [] -> s_bids st !! i = Some b -> b_creator b = sender ->
      does (RemoveBid i) (with_bids st (s_nonce st) (delete i (s_bids st))) [MSend sender [d_price (b_det b)]]
  | DoAcceptBid i d b a :
      s_bids st !! i = Some b -> named_ok p d -> met_by (d_price d) (d_price (b_det b)) ->
      sellable (b_coll b) (b_tok b) d a -> sale_goes p v (s_config st) a (MBid b) false ->
      does (AcceptBid i d) (sold st (s_nonce st) a (MBid b)) (sale_sends p v (s_config st) a (MBid b) false)
  | DoCBid coll d b back :
      opening coll d -> c_amount (d_price d) <> 340282366920938463463374607431768211455 ->
      (forall a, ~ offered st coll None (d_price d) a) ->
      b = CBid (bid_name_of p e st coll) sender coll d -> s_cbids st !! cb_id b = None ->
      pays sender funds None (d_price d) back ->
      does (SetCollectionBid coll d) (with_cbids st (next_count st) (<[cb_id b := b]> (s_cbids st))) back
  | DoCBidBuy m coll d b a back :
      m = SetCollectionBid coll d \/ m = BuyCollectionNft coll d ->
      opening coll d -> c_amount (d_price d) <> 340282366920938463463374607431768211455 ->
      first_ask st coll None (d_price d) a -> pays sender funds None (d_price (a_det a)) back ->
      b = CBid (bid_name_of p e st coll) sender coll d -> sale_goes p v (s_config st) a (MCBid b) true ->
      does m (sold st (next_count st) a (MCBid b)) (sale_sends p v (s_config st) a (MCBid b) true ++ back)
  | DoUpdateCBid i d b back :
      s_cbids st !! i = Some b -> cb_creator b = sender -> named_ok p d -> priced st (cb_coll b) (d_price d) ->
      c_amount (d_price d) <> 340282366920938463463374607431768211455 ->
      (forall a, ~ offered st (cb_coll b) None (d_price d) a) ->
      pays sender funds (Some (d_price (cb_det b))) (d_price d) back ->
      does (UpdateCollectionBid i d)
        (with_cbids st (s_nonce st) (<[i := CBid i sender (cb_coll b) d]> (s_cbids st))) back
  | DoUpdateCBidBuy i d b0 b a back :
      s_cbids st !! i = Some b0 -> cb_creator b0 = sender -> named_ok p d -> priced st (cb_coll b0) (d_price d) ->
      c_amount (d_price d) <> 340282366920938463463374607431768211455 ->
      first_ask st (cb_coll b0) None (d_price d) a ->
      pays sender funds (Some (d_price (cb_det b0))) (d_price (a_det a)) back ->
      b = CBid i sender (cb_coll b0) d -> sale_goes p v (s_config st) a (MCBid b) true ->
      does (UpdateCollectionBid i d) (sold st (s_nonce st) a (MCBid b)) (sale_sends p v (s_config st) a (MCBid b) true ++ back)
  | DoRemoveCBid i b :
      funds = [] -> s_cbids st !! i = Some b -> cb_creator b = sender ->
      does (RemoveCollectionBid i) (with_cbids st (s_nonce st) (delete i (s_cbids st))) [MSend sender [d_price (cb_det b)]]
  | DoAcceptCBid i tok d b a :
      s_cbids st !! i = Some b -> named_ok p d -> met_by (d_price d) (d_price (cb_det b)) ->
      sellable (cb_coll b) tok d a -> sale_goes p v (s_config st) a (MCBid b) false ->
      does (AcceptCollectionBid i tok d) (sold st (s_nonce st) a (MCBid b)) (sale_sends p v (s_config st) a (MCBid b) false).
End Does.
