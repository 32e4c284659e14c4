(** Events of marketplace v1: the [events] of the response of a successful call.  File references are relative to
    /repo/contracts/marketplace/src.  Messages and events are separate fields of the response, so the events are computed
    by functions of their own, which follow the branches of the handlers in V1Model.v.  Checks that make the call fail are
    not repeated: a failed call has no events.  Left out: the event that the external crate sg1 adds in [fair_burn]. *)
From stdpp Require Import pretty.
From Verif Require Import Base Common IndexRange V1Model Events.

(** state.rs:58-65 *)
Definition sale_type_text (ty : sale_type) : string := match ty with FixedPrice => "fixed_price" | Auction => "auction" end.

(** execute.rs:1225-1236: the royalty is reported when there is one, whatever its amount *)
Definition payout_events (v : view) (coll : addr) (payment : N) : list event :=
  match q_info v coll with
  | None => []   (* the call fails *)
  | Some ci =>
      match parse_royalties (ci_royalty ci) with
      | Some (to, share) =>
          match mul_floor payment share with
          | Ok amount =>
              [Event "royalty-payout"
                 [("collection", coll); ("amount", coin_text (Coin NATIVE_DENOM amount)); ("recipient", to)]]
          | Err _ => []   (* the call fails *)
          end
      | None => []
      end
  end.
(** execute.rs:1124-1171 *)
Definition finalize_events (v : view) (a : ask) (price : N) (buyer : addr) (asset_recipient : option addr) : list event :=
  payout_events v (k_coll a) price ++
  [Event "finalize-sale"
     [("collection", k_coll a); ("token_id", tok_str (k_tok a)); ("seller", k_seller a); ("buyer", buyer);
      ("price", pretty price); ("asset_recipient", address_or asset_recipient buyer)]].

Section Events.
Context (p : params).

Section Calls.
Context (v : view) (e : env) (sender : addr) (funds : list coin) (st : state).

(** execute.rs:362-407: neither the recipient of the funds nor the finder's fee is reported *)
Definition events_set_ask (ty : sale_type) (coll : addr) (tok : N) (price : coin) (reserve : option addr) (expires : N)
    : list event :=
  [Event "set-ask"
     ([("collection", coll); ("token_id", tok_str tok); ("sale_type", sale_type_text ty)] ++ opt_attr "reserve_for" reserve ++
      [("seller", sender); ("price", coin_text price); ("expires", time_text expires)])].
(** execute.rs:428-430 *)
Definition events_remove_ask (coll : addr) (tok : N) : list event :=
  [Event "remove-ask" [("collection", coll); ("token_id", tok_str tok)]].
(** execute.rs:463-466 *)
Definition events_update_ask_price (coll : addr) (tok : N) (price : coin) : list event :=
  [Event "update-ask" [("collection", coll); ("token_id", tok_str tok); ("price", coin_text price)]].
(** execute.rs:472-632: the last event is the same whether the bid is stored or the NFT is bought; [sale_type] is whatever
    the caller says. *)
Definition events_set_bid (sale_type : sale_type) (coll : addr) (tok : N) (expires : N) (asset_recipient : option addr)
    : list event :=
  match must_pay funds NATIVE_DENOM with
  | Err _ => []   (* the call fails *)
  | Ok bid_price =>
      match s_asks st !! (coll, tok) with
      | Some a =>
          match k_type a, bid_price ?= k_price a with
          | FixedPrice, Eq => finalize_events v a bid_price sender asset_recipient
          | _, _ => []
          end
      | None => []
      end ++
      [Event "set-bid"
         [("collection", coll); ("sale_type", sale_type_text sale_type); ("token_id", tok_str tok); ("bidder", sender);
          ("bid_price", pretty bid_price); ("expires", time_text expires)]]
  end.
(** execute.rs:656-659 *)
Definition events_remove_bid (coll : addr) (tok : N) : list event :=
  [Event "remove-bid" [("collection", coll); ("token_id", tok_str tok); ("bidder", sender)]].
(** execute.rs:670-731 *)
Definition events_accept_bid (coll : addr) (tok : N) (bidder : addr) : list event :=
  match s_bids st !! (coll, tok, bidder) with
  | None => []
  | Some b =>
      let a := Ask Auction coll tok sender (b_price b) (Some sender) None (b_finders b) (b_expires b) true in
      finalize_events v a (b_price b) bidder None ++
      [Event "accept-bid"
         [("collection", coll); ("token_id", tok_str tok); ("bidder", bidder); ("price", pretty (b_price b))]]
  end.
(** execute.rs:756-760 *)
Definition events_reject_bid (coll : addr) (tok : N) (bidder : addr) : list event :=
  match s_bids st !! (coll, tok, bidder) with
  | None => []
  | Some b =>
      [Event "reject-bid"
         [("collection", coll); ("token_id", tok_str tok); ("bidder", bidder); ("price", pretty (b_price b))]]
  end.
(** execute.rs:816-820 *)
Definition events_set_collection_bid (coll : addr) (expires : N) : list event :=
  match must_pay funds NATIVE_DENOM with
  | Err _ => []
  | Ok price =>
      [Event "set-collection-bid"
         [("collection", coll); ("bidder", sender); ("bid_price", pretty price); ("expires", time_text expires)]]
  end.
(** execute.rs:847-849 *)
Definition events_remove_collection_bid (coll : addr) : list event :=
  [Event "remove-collection-bid" [("collection", coll); ("bidder", sender)]].
(** execute.rs:860-920 *)
Definition events_accept_collection_bid (coll : addr) (tok : N) (bidder : addr) : list event :=
  match s_cbids st !! (coll, bidder) with
  | None => []
  | Some b =>
      let a := Ask Auction coll tok sender (cb_price b) (Some sender) None (cb_finders b) (cb_expires b) true in
      finalize_events v a (cb_price b) bidder None ++
      [Event "accept-collection-bid"
         [("collection", coll); ("token_id", tok_str tok); ("bidder", bidder); ("seller", sender);
          ("price", pretty (cb_price b))]]
  end.
(** execute.rs:924-962 *)
Definition events_sync_ask (coll : addr) (tok : N) : list event :=
  [Event "update-ask-state"
     [("collection", coll); ("token_id", tok_str tok); ("is_active", bool_text (q_approval v coll (tok_str tok) (p_self p)))]].
(** execute.rs:966-1019: the same type as the removal by the owner *)
Definition events_remove_stale_ask (coll : addr) (tok : N) : list event :=
  match s_asks st !! (coll, tok) with
  | None => []
  | Some a =>
      [Event "remove-ask"
         [("collection", coll); ("token_id", tok_str tok); ("operator", sender);
          ("expired", bool_text (is_expired (k_expires a) e));
          ("has_owner", bool_text (bool_decide (q_owner v coll (tok_str tok) <> None)));
          ("has_approval", bool_text (q_approval v coll (tok_str tok) (p_self p)))]]
  end.
(** execute.rs:1046, 1059-1064 *)
Definition events_remove_stale_bid (coll : addr) (tok : N) (bidder : addr) : list event :=
  match (b ← load (s_bids st !! (coll, tok, bidder)); removal_reward st (b_price b)) with
  | Err _ => []
  | Ok reward =>
      [Event "remove-stale-bid"
         [("collection", coll); ("token_id", tok_str tok); ("bidder", bidder); ("operator", sender);
          ("reward", pretty reward)]]
  end.
(** execute.rs:1098, 1110-1114 *)
Definition events_remove_stale_collection_bid (coll bidder : addr) : list event :=
  match (b ← load (s_cbids st !! (coll, bidder)); removal_reward st (cb_price b)) with
  | Err _ => []
  | Ok reward =>
      [Event "remove-stale-collection-bid"
         [("collection", coll); ("bidder", bidder); ("operator", sender); ("reward", pretty reward)]]
  end.

(** execute.rs:107-310.  [sale_type]: the argument of SetBid of that name, which [msg] leaves out.  BuyNow and BuyFor pass
    FixedPrice (execute.rs:173, 194). *)
Definition call_events (sale_type : sale_type) (m : msg) : list event :=
  match m with
  | SetAsk ty coll tok price _ reserve _ expires => events_set_ask ty coll tok price reserve expires
  | RemoveAsk coll tok => events_remove_ask coll tok
  | UpdateAskPrice coll tok price => events_update_ask_price coll tok price
  | SetBid coll tok expires _ _ => events_set_bid sale_type coll tok expires None
  | BuyNow coll tok expires _ _ => events_set_bid FixedPrice coll tok expires None
  | BuyFor coll tok expires _ _ to => events_set_bid FixedPrice coll tok expires (Some to)
  | RemoveBid coll tok => events_remove_bid coll tok
  | AcceptBid coll tok bidder _ => events_accept_bid coll tok bidder
  | RejectBid coll tok bidder => events_reject_bid coll tok bidder
  | SetCollectionBid coll expires _ => events_set_collection_bid coll expires
  | RemoveCollectionBid coll => events_remove_collection_bid coll
  | AcceptCollectionBid coll tok bidder _ => events_accept_collection_bid coll tok bidder
  | SyncAsk coll tok => events_sync_ask coll tok
  | RemoveStaleAsk coll tok => events_remove_stale_ask coll tok
  | RemoveStaleBid coll tok bidder => events_remove_stale_bid coll tok bidder
  | RemoveStaleCollectionBid coll bidder => events_remove_stale_collection_bid coll bidder
  end.
End Calls.

(** sudo.rs:135, 146-148, 160-162, 169-171, 178-180, 187-189, 196-198, 205-207, 214-216; execute.rs:1463-1487 (none).
    [instantiate] has no events either (execute.rs:84). *)
Definition sudo_events (m : sudo_msg) : list event :=
  response_event
    match m with
    | UpdateParams _ => [("action", "update_params")]
    | AddOperator a => [("action", "add_operator"); ("operator", a)]
    | RemoveOperator a => [("action", "remove_operator"); ("operator", a)]
    | AddSaleHook h => [("action", "add_sale_hook"); ("hook", h)]
    | AddAskHook h => [("action", "add_ask_hook"); ("hook", h)]
    | AddBidHook h => [("action", "add_bid_hook"); ("hook", h)]
    | RemoveSaleHook h => [("action", "remove_sale_hook"); ("hook", h)]
    | RemoveAskHook h => [("action", "remove_ask_hook"); ("hook", h)]
    | RemoveBidHook h => [("action", "remove_bid_hook"); ("hook", h)]
    | Migrate => []
    end.

(** execute.rs:1361-1389; [err] is the error of the failed hook call *)
Definition reply_events (id : N) (err : string) : list event :=
  response_event
    (if id =? 1 then [("action", "ask-hook-failed"); ("error", err)]
     else if id =? 2 then [("action", "sale-hook-failed"); ("error", err)]
     else if id =? 3 then [("action", "bid-hook-failed"); ("error", err)]
     else if id =? 4 then [("action", "collection-bid-hook-failed"); ("error", err)]
     else []).
End Events.
