(** Events of marketplace v2: the [events] of the response of a successful call.  File references are relative to
    /repo/contracts/stargaze-marketplace-v2/src.  Messages and events are separate fields of the response, so the events
    are computed by functions of their own, which follow the branches of the handlers in V2Model.v.  Checks that make the
    call fail are not repeated: a failed call has no events.  Every handler adds its events to an empty response. *)
From stdpp Require Import pretty.
From Verif Require Import Base Common IndexRange V2Model Events.

(** events.rs:9-29 *)
Definition config_event (ty : string) (c : config) : event :=
  Event ty [("fee_manager", cf_fee_manager c); ("royalty_registry", cf_registry c);
            ("protocol_fee_bps", pretty (cf_protocol_bps c)); ("max_royalty_fee_bps", pretty (cf_max_royalty_bps c));
            ("maker_reward_bps", pretty (cf_maker_bps c)); ("taker_reward_bps", pretty (cf_taker_bps c));
            ("default_denom", cf_default_denom c)].
(** events.rs:31-44 *)
Definition collection_denom_event (ty : string) (coll : addr) (dn : denom) : event :=
  Event ty [("collection", coll); ("denom", dn)].
(** events.rs:46-61 *)
Definition listing_fee_event (ty : string) (dn : denom) (amount : option N) : event :=
  Event ty (("denom", dn) :: opt_attr "fee" (pretty <$> amount)).

(** orders.rs:129-157.  Any other key panics; no call passes one. *)
Definition ask_attr (a : ask) (k : string) : list (string * string) :=
  if (k =? "id")%string then [("id", a_id a)]
  else if (k =? "creator")%string then [("creator", a_creator a)]
  else if (k =? "collection")%string then [("collection", a_coll a)]
  else if (k =? "token_id")%string then [("token_id", a_tok a)]
  else if (k =? "price")%string then [("price", coin_text (d_price (a_det a)))]
  else if (k =? "recipient")%string then opt_attr "recipient" (d_recipient (a_det a))
  else if (k =? "finder")%string then opt_attr "finder" (d_finder (a_det a))
  else [].
(** orders.rs:220-248 *)
Definition bid_attr (b : bid) (k : string) : list (string * string) :=
  if (k =? "id")%string then [("id", b_id b)]
  else if (k =? "creator")%string then [("creator", b_creator b)]
  else if (k =? "collection")%string then [("collection", b_coll b)]
  else if (k =? "token_id")%string then [("token_id", b_tok b)]
  else if (k =? "price")%string then [("price", coin_text (d_price (b_det b)))]
  else if (k =? "recipient")%string then opt_attr "recipient" (d_recipient (b_det b))
  else if (k =? "finder")%string then opt_attr "finder" (d_finder (b_det b))
  else [].
(** orders.rs:313-340 *)
Definition cbid_attr (cb : cbid) (k : string) : list (string * string) :=
  if (k =? "id")%string then [("id", cb_id cb)]
  else if (k =? "creator")%string then [("creator", cb_creator cb)]
  else if (k =? "collection")%string then [("collection", cb_coll cb)]
  else if (k =? "price")%string then [("price", coin_text (d_price (cb_det cb)))]
  else if (k =? "recipient")%string then opt_attr "recipient" (d_recipient (cb_det cb))
  else if (k =? "finder")%string then opt_attr "finder" (d_finder (cb_det cb))
  else [].
(** events.rs:63-73, 75-85, 87-98 *)
Definition ask_event (ty : string) (a : ask) (keys : list string) : event := Event ty (List.flat_map (ask_attr a) keys).
Definition bid_event (ty : string) (b : bid) (keys : list string) : event := Event ty (List.flat_map (bid_attr b) keys).
Definition cbid_event (ty : string) (cb : cbid) (keys : list string) : event := Event ty (List.flat_map (cbid_attr cb) keys).

(** The labels of fees and payments, sg-marketplace-common sale.rs:6-17, 37-73, which Common.v drops. *)
Fixpoint label_fee_payments (sale_coin : coin) (fees : list (string * fee)) (seller_amount : N)
  : result (list (string * payment) * N) :=
  match fees with
  | [] => Ok ([], seller_amount)
  | (l, f) :: fees =>
      if fee_share f =? 0 then label_fee_payments sale_coin fees seller_amount
      else
        fee_amount ← mul_ceil (c_amount sale_coin) (fee_share f);
        rest ← checked_sub128 seller_amount fee_amount;
        r ← label_fee_payments sale_coin fees rest;
        let '(ps, final) := r in
        Ok ((l, Payment (fee_recipient f) (Coin (c_denom sale_coin) fee_amount)) :: ps, final)
  end.
Definition label_payments (sale_coin : coin) (seller_recipient : addr) (fees : list (string * fee))
  : result (list (string * payment)) :=
  r ← label_fee_payments sale_coin fees (c_amount sale_coin);
  let '(ps, seller_amount) := r in
  if seller_amount =? 0 then Ok ps
  else Ok (ps ++ [("seller", Payment seller_recipient (Coin (c_denom sale_coin) seller_amount))]).
(** helpers.rs:140-181 with the labels *)
Definition label_fees (cfg : config) (pf : protocol_fees) (maker taker : option addr)
    (royalty : option royalty_entry) : list (string * fee) :=
  (if 0 <? pf_protocol pf then [("protocol", Fee (pf_protocol pf) (cf_fee_manager cfg))] else []) ++
  (if 0 <? pf_maker pf then match maker with Some m => [("maker", Fee (pf_maker pf) m)] | None => [] end else []) ++
  (if 0 <? pf_taker pf then match taker with Some t => [("taker", Fee (pf_taker pf) t)] | None => [] end else []) ++
  (match royalty with
   | Some re => [("royalty", Fee (N.min (re_share re) (dec_bps (cf_max_royalty_bps cfg))) (re_recipient re))]
   | None => []
   end).

Section Events.
Context (p : params).

(** helpers.rs:200-222 *)
Definition sale_events (v : view) (cfg : config) (a : ask) (mb : matching_bid) (ask_before_bid : bool) : list event :=
  let nft_recipient := mb_recipient mb in
  let bd := mb_det mb in
  let '(sale_price, maker, taker) :=
    if ask_before_bid then (d_price (a_det a), d_finder (a_det a), d_finder bd)
    else (d_price bd, d_finder bd, d_finder (a_det a)) in
  let seller_recipient := ask_recipient a in
  match (pf ← divide_protocol_fees cfg (bool_decide (is_Some maker)) (bool_decide (is_Some taker));
         rr ← fetch_or_set_royalties p v (cf_registry cfg) (a_coll a) (Some (p_self p)) [];
         label_payments sale_price seller_recipient (label_fees cfg pf maker taker (fst rr))) with
  | Ok payments =>
      [Event "finalize-sale"
        ([("collection", a_coll a); ("token_id", a_tok a); ("denom", c_denom sale_price);
          ("price", pretty (c_amount sale_price)); ("seller_recipient", seller_recipient);
          ("nft_recipient", nft_recipient); ("ask", a_id a)] ++
         [match mb with MBid b => ("bid", b_id b) | MCBid cb => ("collection_bid", cb_id cb) end] ++
         ((fun x => (fst x, pretty (c_amount (pay_funds (snd x))))) <$> payments))]
  | Err _ => []   (* the call fails *)
  end.

Section Calls.
Context (v : view) (e : env) (sender : addr) (st : state).

(** execute.rs:160-166, 182-189, 204-211, 226-233 *)
Definition events_update_config (c : config) : list event := [config_event "set-config" c].
Definition events_update_collection_denom (coll : addr) (dn : denom) : list event :=
  [collection_denom_event "set-collection-denom" coll dn].
Definition events_set_listing_fee (f : coin) : list event :=
  [listing_fee_event "set-listing-fee" (c_denom f) (Some (c_amount f))].
Definition events_remove_listing_fee (dn : denom) : list event := [listing_fee_event "remove-listing-fee" dn None].
(** execute.rs:272-318 *)
Definition events_set_ask (coll : addr) (tok : token) (d : details) : list event :=
  let a := ask_new p sender coll tok d in
  match match_with_bid st a with
  | Some mb => sale_events v (s_config st) a mb false
  | None => [ask_event "set-ask" a ["id"; "creator"; "collection"; "token_id"; "price"; "recipient"; "finder"]]
  end.
(** execute.rs:331-376 *)
Definition events_update_ask (id : order_id) (d : details) : list event :=
  match s_asks st !! id with
  | None => []
  | Some a =>
      let a := Ask (a_id a) (a_creator a) (a_coll a) (a_tok a) d in
      match match_with_bid st a with
      | Some mb => sale_events v (s_config st) a mb false
      | None => [ask_event "update-ask" a ["id"; "collection"; "token_id"; "price"; "recipient"; "finder"]]
      end
  end.
(** execute.rs:407-414 *)
Definition events_remove_ask (id : order_id) : list event :=
  match s_asks st !! id with
  | None => []
  | Some a => [ask_event "remove-ask" a ["id"; "collection"; "token_id"]]
  end.
(** execute.rs:429-463 *)
Definition events_accept_ask (id : order_id) (d : details) : list event :=
  match s_asks st !! id with
  | None => []
  | Some a =>
      let b := bid_new p sender (a_coll a) (a_tok a) d (e_height e) (next_nonce st) in
      sale_events v (s_config st) a (MBid b) true
  end.
(** execute.rs:491-555 *)
Definition events_set_bid (coll : addr) (tok : token) (d : details) : list event :=
  let b := bid_new p sender coll tok d (e_height e) (next_nonce st) in
  match bid_match_with_ask p st b with
  | Some a => sale_events v (s_config st) a (MBid b) true
  | None => [bid_event "set-bid" b ["id"; "creator"; "collection"; "token_id"; "price"; "recipient"; "finder"]]
  end.
(** execute.rs:574-640 *)
Definition events_update_bid (id : order_id) (d : details) : list event :=
  match s_bids st !! id with
  | None => []
  | Some b =>
      let b := Bid (b_id b) (b_creator b) (b_coll b) (b_tok b) d in
      match bid_match_with_ask p st b with
      | Some a => sale_events v (s_config st) a (MBid b) true
      | None => [bid_event "update-bid" b ["id"; "collection"; "token_id"; "price"; "creator"; "recipient"; "finder"]]
      end
  end.
(** execute.rs:676-683 *)
Definition events_remove_bid (id : order_id) : list event :=
  match s_bids st !! id with
  | None => []
  | Some b => [bid_event "remove-bid" b ["id"; "collection"; "token_id"]]
  end.
(** execute.rs:695-734 *)
Definition events_accept_bid (id : order_id) (d : details) : list event :=
  match s_bids st !! id with
  | None => []
  | Some b =>
      match accept_bid_ask p v sender st (b_coll b) (b_tok b) d with
      | Ok a => sale_events v (s_config st) a (MBid b) false
      | Err _ => []
      end
  end.
(** execute.rs:756-820 *)
Definition events_set_collection_bid (coll : addr) (d : details) : list event :=
  let cb := cbid_new p sender coll d (e_height e) (next_nonce st) in
  match cbid_match_with_ask st cb with
  | Ok (Some a) => sale_events v (s_config st) a (MCBid cb) true
  | Ok None => [cbid_event "set-collection-bid" cb ["id"; "creator"; "collection"; "price"; "recipient"; "finder"]]
  | Err _ => []
  end.
(** execute.rs:840-910 *)
Definition events_update_collection_bid (id : order_id) (d : details) : list event :=
  match s_cbids st !! id with
  | None => []
  | Some cb =>
      let cb := CBid (cb_id cb) (cb_creator cb) (cb_coll cb) d in
      match cbid_match_with_ask st cb with
      | Ok (Some a) => sale_events v (s_config st) a (MCBid cb) true
      | Ok None => [cbid_event "update-collection-bid" cb ["id"; "collection"; "price"; "creator"; "recipient"; "finder"]]
      | Err _ => []
      end
  end.
(** execute.rs:946-953 *)
Definition events_remove_collection_bid (id : order_id) : list event :=
  match s_cbids st !! id with
  | None => []
  | Some cb => [cbid_event "remove-collection-bid" cb ["id"; "collection"]]
  end.
(** execute.rs:966-1008 *)
Definition events_accept_collection_bid (id : order_id) (tok : token) (d : details) : list event :=
  match s_cbids st !! id with
  | None => []
  | Some cb =>
      match accept_bid_ask p v sender st (cb_coll cb) tok d with
      | Ok a => sale_events v (s_config st) a (MCBid cb) false
      | Err _ => []
      end
  end.

(** execute.rs:28-149 *)
Definition call_events (m : msg) : list event :=
  match m with
  | UpdateConfig c => events_update_config c
  | UpdateCollectionDenom coll dn => events_update_collection_denom coll dn
  | SetListingFee f => events_set_listing_fee f
  | RemoveListingFee dn => events_remove_listing_fee dn
  | SetAsk coll tok d | SellNft coll tok d => events_set_ask coll tok d
  | UpdateAsk id d => events_update_ask id d
  | RemoveAsk id => events_remove_ask id
  | AcceptAsk id d => events_accept_ask id d
  | SetBid coll tok d | BuySpecificNft coll tok d => events_set_bid coll tok d
  | UpdateBid id d => events_update_bid id d
  | RemoveBid id => events_remove_bid id
  | AcceptBid id d => events_accept_bid id d
  | SetCollectionBid coll d | BuyCollectionNft coll d => events_set_collection_bid coll d
  | UpdateCollectionBid id d => events_update_collection_bid id d
  | RemoveCollectionBid id => events_remove_collection_bid id
  | AcceptCollectionBid id tok d => events_accept_collection_bid id tok d
  end.
End Calls.

(** instantiate.rs:30-42; the two constants are constants.rs:1-2 with Cargo.toml:2-3 *)
Definition CONTRACT_NAME : string := "stargaze-marketplace-v2".
Definition CONTRACT_VERSION : string := "0.7.0".
Definition instantiate_events (c : config) : list event :=
  [Event "instantiate" [("contract_name", CONTRACT_NAME); ("contract_version", CONTRACT_VERSION)];
   config_event "set-config" c].
End Events.
