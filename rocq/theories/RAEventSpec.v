(** What the events of the reserve auction should tell: an observer who sees nothing but events and block times can rebuild
    the auctions, the minimum prices and the settings, and every settlement, postponement and bid is reported as it is. *)
From stdpp Require Import pretty.
From Verif Require Import Base Common Chain ChainFacts RAModel RASpec Events RAEvents.

(** * The observer *)
(** An auction as the observer knows it. *)
Record row : Type := Row {
  r_seller : string; r_reserve : string; r_recipient : option string;
  r_high : option (string * string); r_end : option string; r_first : option string }.
Record index : Type := Index {
  ix_auctions : gmap (string * string) row; ix_config : list string; ix_mins : gmap string string }.
Definition blank : index := Index ∅ [] ∅.
Definition config_keys : list string :=
  ["fair_burn"; "trading_fee_percent"; "min_bid_increment_percent"; "min_duration"; "extend_duration"; "create_auction_fee";
   "max_auctions_to_settle_per_block"; "halt_duration_threshold"; "halt_buffer_duration"; "halt_postpone_duration"].
Definition see_bid (now : N) (ev : event) (r : row) : row :=
  Row (r_seller r) (r_reserve r) (r_recipient r) (Some (text "bidder" ev, text "bid_amount" ev))
      (Some (text "auction_end_time" ev))
      (if (text "first_bid" ev =? "true")%string then Some (time_text now) else r_first r).
(** One event in a block of time [now]. *)
Definition see (ix : index) (x : N * event) : index :=
  let '(Index a cf mn) := ix in
  let '(now, ev) := x in
  let ty := ev_type ev in let k := (text "collection" ev, text "token_id" ev) in
  if (ty =? "create-auction")%string then
    Index (<[k := Row (text "seller" ev) (text "reserve_price" ev) (field "seller_funds_recipient" (ev_attrs ev)) None None None]> a) cf mn
  else if (ty =? "update-reserve-price")%string then
    Index (alter (fun r => Row (r_seller r) (text "reserve_price" ev) (r_recipient r) (r_high r) (r_end r) (r_first r)) k a) cf mn
  else if (ty =? "cancel-auction")%string then Index (delete k a) cf mn
  else if (ty =? "place-bid")%string then Index (alter (see_bid now ev) k a) cf mn
  else if (ty =? "postpone-auction")%string then
    Index (alter (fun r => Row (r_seller r) (r_reserve r) (r_recipient r) (r_high r) (Some (text "auction_end_time" ev)) (r_first r)) k a) cf mn
  else if (ty =? "settle-auction")%string then Index (delete k a) cf mn
  else if (ty =? "set-min-reserve-price")%string then Index a cf (<[text "denom" ev := text "amount" ev]> mn)
  else if (ty =? "unset-min-reserve-price")%string then Index a cf (delete (text "denom" ev) mn)
  else if (ty =? "sudo-update-params")%string then
    Index a (zip_with (fun k old => default old (field k (ev_attrs ev))) config_keys cf) mn
  else if (ty =? "wasm")%string && (text "action" ev =? "instantiate")%string then
    Index a ((fun k => text k ev) <$> config_keys) mn
  else ix.
Definition observe (evs : list (N * event)) : index := fold_left see evs blank.

(** * The truth *)
Definition bid_text (hb : high_bid) : string * string := (hb_bidder hb, coin_text (hb_coin hb)).
Definition auction_row (a : auction) : row :=
  Row (a_seller a) (coin_text (a_reserve a)) (a_recipient a) (bid_text <$> a_high a) (time_text <$> a_end a) (time_text <$> a_first a).
(** The longest allowed duration is missing. *)
Definition config_texts (c : config) : list string :=
  [cf_fair_burn c; dec_text (cf_trading_fee c); dec_text (cf_increment c); pretty (cf_min_duration c); pretty (cf_extend c);
   coin_text (cf_create_fee c); pretty (cf_max_settle c); pretty (cf_halt_threshold c); pretty (cf_halt_buffer c);
   pretty (cf_halt_postpone c)].
Definition truth (st : state) : index :=
  Index (auction_row <$> s_auctions st) (config_texts (s_config st)) (pretty <$> s_mins st).

(** The storage after some calls, with all events so far and the time of each. *)
Inductive ra_log (p : params) (lb : lib) : state -> list (N * event) -> Prop :=
  | LogStart c mins st now : instantiate p c mins = Ok st -> ra_log p lb st (pair now <$> instantiate_events c mins)
  | LogCall st evs v e sender funds m st' msgs :
      ra_log p lb st evs -> sender <> p_self p -> execute p lb v e sender funds st m = Ok (st', msgs) ->
      ra_log p lb st' (evs ++ (pair (e_time e) <$> call_events e sender funds st m))
  | LogSudo st evs v e m st' msgs :
      ra_log p lb st evs -> sudo p lb v e st m = Ok (st', msgs) ->
      ra_log p lb st' (evs ++ (pair (e_time e) <$> sudo_events e st m)).

(** Two auctions, two configurations that differ at most in the duration and the longest allowed duration. *)
Definition same_auction (a b : auction) : Prop :=
  a_coll a = a_coll b /\ a_tok a = a_tok b /\ a_seller a = a_seller b /\ a_reserve a = a_reserve b /\ a_end a = a_end b /\
  a_recipient a = a_recipient b /\ a_high a = a_high b /\ a_first a = a_first b.
Definition same_config (c d : config) : Prop :=
  cf_fair_burn c = cf_fair_burn d /\ cf_trading_fee c = cf_trading_fee d /\ cf_increment c = cf_increment d /\
  cf_min_duration c = cf_min_duration d /\ cf_extend c = cf_extend d /\ cf_create_fee c = cf_create_fee d /\
  cf_max_settle c = cf_max_settle d /\ cf_halt_threshold c = cf_halt_threshold d /\ cf_halt_buffer c = cf_halt_buffer d /\
  cf_halt_postpone c = cf_halt_postpone d.
Definition same_house (st st' : state) : Prop :=
  (forall k, match s_auctions st !! k, s_auctions st' !! k with
             | Some a, Some b => same_auction a b
             | None, None => True
             | _, _ => False
             end) /\
  same_config (s_config st) (s_config st') /\ s_mins st = s_mins st'.
(** The coins in it are in denoms as the bank has them. *)
Definition bank_denoms (st : state) : Prop :=
  (forall k a, s_auctions st !! k = Some a -> lettered (c_denom (a_reserve a))) /\
  lettered (c_denom (cf_create_fee (s_config st))).

(** * Reports *)
Definition settled_report (a : auction) (hb : high_bid) : event :=
  Event "settle-auction"
    [("collection", a_coll a); ("token_id", a_tok a); ("seller", a_seller a); ("bidder", hb_bidder hb);
     ("bid_amount", pretty (c_amount (hb_coin hb))); ("bid_denom", c_denom (hb_coin hb))].
Definition postponed_report (a : auction) (t : N) : event :=
  Event "postpone-auction" [("collection", a_coll a); ("token_id", a_tok a); ("auction_end_time", time_text t)].
(** The NFTs that leave, with their new owners, and what the reports of settlements say about it. *)
Definition nft_moves (msgs : list cmsg) : list (string * string * string) :=
  List.flat_map (fun m => match m with MNft c t to => [(c, t, to)] | _ => [] end) msgs.
Definition told_moves (evs : list event) : list (string * string * string) :=
  List.flat_map (fun ev => if (ev_type ev =? "settle-auction")%string
                           then [(text "collection" ev, text "token_id" ev, text "bidder" ev)] else []) evs.
(** [evs] report what happened to the auctions between [st] and [st'], and nothing else about them. *)
Record told (st st' : state) (msgs : list cmsg) (evs : list event) : Prop := {
  told_nfts : nft_moves msgs = told_moves evs;
  told_once : NoDup (told_moves evs).*1;
  told_gone : forall k a, s_auctions st !! k = Some a -> s_auctions st' !! k = None ->
    exists hb, a_high a = Some hb /\ settled_report a hb ∈ evs;
  told_moved : forall k a a', s_auctions st !! k = Some a -> s_auctions st' !! k = Some a' -> a <> a' ->
    exists t, a' = with_end a t /\ postponed_report a t ∈ evs;
  told_true : forall ev, ev ∈ evs -> ev_type ev <> "sudo-end-block" -> exists a,
    s_auctions st !! (a_coll a, a_tok a) = Some a /\
    ((exists hb, a_high a = Some hb /\ s_auctions st' !! (a_coll a, a_tok a) = None /\ ev = settled_report a hb) \/
     (exists t, s_auctions st' !! (a_coll a, a_tok a) = Some (with_end a t) /\ ev = postponed_report a t));
}.
(** The report of a bid [hb] on auction [a] after which it ends at time [t]. *)
Definition bid_report (a : auction) (hb : high_bid) (t : N) : event :=
  Event "place-bid"
    ([("collection", a_coll a); ("token_id", a_tok a); ("seller", a_seller a); ("bidder", hb_bidder hb);
      ("bid_amount", coin_text (hb_coin hb)); ("first_bid", match a_high a with Some _ => "false" | None => "true" end);
      ("auction_end_time", time_text t)]
     ++ match a_high a with
        | Some prev => [("previous_bidder", hb_bidder prev); ("previous_bid_amount", coin_text (hb_coin prev))]
        | None => []
        end).
(** What the report says about the refund of the previous bid. *)
Definition told_refund (ev : event) : list (string * string) :=
  match field "previous_bidder" (ev_attrs ev), field "previous_bid_amount" (ev_attrs ev) with
  | Some to, Some amount => [(to, amount)]
  | _, _ => []
  end.
Definition sends (msgs : list cmsg) : list (string * string) :=
  List.flat_map (fun m => match m with MSend to cs => (fun c => (to, coin_text c)) <$> cs | _ => [] end) msgs.
