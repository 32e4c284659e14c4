(** Events of the reserve auction: the [events] of the response of a successful call, and its attributes, which the chain
    turns into an event of type "wasm".  File references are relative to /repo/contracts/reserve-auction/src.  The events are
    computed by functions of their own, which follow the branches of the handlers in RAModel.v; checks that make the call
    fail are not repeated.  Left out: events the external fee helpers may add ([payout_nft_sale_fees], [fair_burn]). *)
From stdpp Require Import pretty.
From Verif Require Import Base Common IndexRange RAModel Events.

(** execute.rs:165-175 *)
Definition create_event (a : auction) : event :=
  Event "create-auction"
    ([("collection", a_coll a); ("token_id", a_tok a); ("seller", a_seller a); ("reserve_price", coin_text (a_reserve a))]
     ++ opt_attr "seller_funds_recipient" (a_recipient a)).
(** execute.rs:216-219 *)
Definition reserve_event (a : auction) (reserve : coin) : event :=
  Event "update-reserve-price" [("token_id", a_tok a); ("collection", a_coll a); ("reserve_price", coin_text reserve)].
(** execute.rs:248-250 *)
Definition cancel_event (a : auction) : event :=
  Event "cancel-auction" [("collection", a_coll a); ("token_id", a_tok a)].
(** execute.rs:300-305: the attributes of every bid. *)
Definition bid_attrs (a : auction) (next : high_bid) : list (string * string) :=
  [("collection", a_coll a); ("token_id", a_tok a); ("seller", a_seller a); ("bidder", hb_bidder next);
   ("bid_amount", coin_text (hb_coin next))].
(** execute.rs:307-346.  The end time that is reported is the one that is stored. *)
Definition place_bid_event (e : env) (sender : addr) (funds : list coin) (st : state) (a : auction) : event :=
  let cfg := s_config st in
  let now := e_time e in
  let next := HighBid (Coin (a_denom a) (match must_pay funds (a_denom a) with Ok n => n | Err _ => 0 end)) sender in
  match a_first a with
  | None =>
      Event "place-bid"
        (bid_attrs a next ++ [("first_bid", bool_text true); ("auction_end_time", time_text (now + a_duration a * NANOS))])
  | Some _ =>
      match a_high a, a_end a with
      | Some prev, Some t =>
          let end_time := if t_seconds t - t_seconds now <? cf_extend cfg then now + cf_extend cfg * NANOS else t in
          Event "place-bid"
            (bid_attrs a next ++ [("first_bid", bool_text false); ("auction_end_time", time_text end_time);
                                  ("previous_bidder", hb_bidder prev); ("previous_bid_amount", coin_text (hb_coin prev))])
      | _, _ => Event "" []
      end
  end.
(** helpers.rs:72-78 and 111-119 *)
Definition settle_events (now : N) (cfg : config) (h : halt_manager) (a : auction) : list event :=
  match a_end a, a_high a with
  | Some end_time, Some hb =>
      if within_halt_window h (t_seconds end_time) then
        [Event "postpone-auction"
           [("collection", a_coll a); ("token_id", a_tok a);
            ("auction_end_time", time_text (now + cf_halt_postpone cfg * NANOS))]]
      else
        [Event "settle-auction"
           [("collection", a_coll a); ("token_id", a_tok a); ("seller", a_seller a); ("bidder", hb_bidder hb);
            ("bid_amount", pretty (c_amount (hb_coin hb))); ("bid_denom", c_denom (hb_coin hb))]]
  | Some end_time, None =>
      if within_halt_window h (t_seconds end_time) then
        [Event "postpone-auction"
           [("collection", a_coll a); ("token_id", a_tok a);
            ("auction_end_time", time_text (now + cf_halt_postpone cfg * NANOS))]]
      else []
  | None, _ => []
  end.

(** The auction a call refers to. *)
Definition on_auction (st : state) (coll tok : string) (f : auction -> list event) : list event :=
  match s_auctions st !! (coll, tok) with Some a => f a | None => [] end.
(** execute.rs:24-80: the events of a call that succeeds. *)
Definition call_events (e : env) (sender : addr) (funds : list coin) (st : state) (m : msg) : list event :=
  match m with
  | CreateAuction coll tok reserve duration recipient =>
      [create_event (Auction coll tok sender reserve duration None recipient None None)]
  | UpdateReservePrice coll tok reserve => on_auction st coll tok (fun a => [reserve_event a reserve])
  | CancelAuction coll tok => on_auction st coll tok (fun a => [cancel_event a])
  | PlaceBid coll tok => on_auction st coll tok (fun a => [place_bid_event e sender funds st a])
  | SettleAuction coll tok => on_auction st coll tok (settle_events (e_time e) (s_config st) (s_halt st))
  end.

(** sudo.rs:66-69: the event itself is bare; the times are attributes of the response. *)
Definition begin_block_events (e : env) (st : state) : list event :=
  let cfg := s_config st in
  let h := s_halt st in
  let now := t_seconds (e_time e) in
  if (0 <? hm_prev h) && (cf_halt_threshold cfg <=? now - hm_prev h) then
    response_event [("start_time", pretty (hm_prev h)); ("end_time", pretty (now + cf_halt_buffer cfg))]
    ++ [Event "halt-detected" []]
  else [].
(** sudo.rs:103-115 *)
Definition end_block_events (e : env) (st : state) : list event :=
  let cfg := s_config st in
  Event "sudo-end-block" [("action", "settle-auctions")] ::
  List.flat_map (settle_events (e_time e) cfg (s_halt st))
    (due_auctions st (t_seconds (e_time e) + 1) (cf_max_settle cfg)).
(** sudo.rs:143-202 *)
Definition update_params_event (u : params_update) : event :=
  Event "sudo-update-params"
    (opt_attr "fair_burn" (u_fair_burn u) ++
     opt_attr "trading_fee_percent" (dec_text <$> u_trading_fee u) ++
     opt_attr "min_bid_increment_percent" (dec_text <$> u_increment u) ++
     opt_attr "min_duration" (pretty <$> u_min_duration u) ++
     opt_attr "extend_duration" (pretty <$> u_extend u) ++
     opt_attr "create_auction_fee" (coin_text <$> u_create_fee u) ++
     opt_attr "max_auctions_to_settle_per_block" (pretty <$> u_max_settle u) ++
     opt_attr "halt_duration_threshold" (pretty <$> u_halt_threshold u) ++
     opt_attr "halt_buffer_duration" (pretty <$> u_halt_buffer u) ++
     opt_attr "halt_postpone_duration" (pretty <$> u_halt_postpone u)).
(** sudo.rs:226-230, instantiate.rs:83-87 *)
Definition set_min_event (c : coin) : event :=
  Event "set-min-reserve-price" [("denom", c_denom c); ("amount", pretty (c_amount c))].
(** sudo.rs:246-247 *)
Definition unset_min_event (d : denom) : event := Event "unset-min-reserve-price" [("denom", d)].
(** sudo.rs:14-48; migrate.rs:12-16 has no events. *)
Definition sudo_events (e : env) (st : state) (m : sudo_msg) : list event :=
  match m with
  | BeginBlock => begin_block_events e st
  | EndBlock => end_block_events e st
  | UpdateParams u => [update_params_event u]
  | SetMinReservePrices cs => set_min_event <$> cs
  | UnsetMinReservePrices ds => unset_min_event <$> ds
  | Migrate => []
  end.
(** instantiate.rs:39-88, Cargo.toml (name and version). *)
Definition instantiate_events (c : config) (mins : list coin) : list event :=
  response_event
    [("action", "instantiate"); ("contract_name", "crates.io:stargaze-reserve-auction"); ("contract_version", "1.0.2");
     ("fair_burn", cf_fair_burn c); ("trading_fee_percent", dec_text (cf_trading_fee c));
     ("min_bid_increment_percent", dec_text (cf_increment c)); ("min_duration", pretty (cf_min_duration c));
     ("extend_duration", pretty (cf_extend c)); ("create_auction_fee", coin_text (cf_create_fee c));
     ("max_auctions_to_settle_per_block", pretty (cf_max_settle c));
     ("halt_duration_threshold", pretty (cf_halt_threshold c)); ("halt_buffer_duration", pretty (cf_halt_buffer c));
     ("halt_postpone_duration", pretty (cf_halt_postpone c))]
  ++ (set_min_event <$> mins).
