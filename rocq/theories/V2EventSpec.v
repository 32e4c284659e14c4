(** What the events of marketplace v2 should tell: an observer who sees nothing but events can rebuild the order book and
    the settings, and every sale is reported in full. *)
From stdpp Require Import pretty.
From Verif Require Import Base Common Chain ChainFacts V2Model V2Spec Events V2Events.

(** * The observer *)
(** An order as the observer knows it; the token is [None] for collection bids. *)
Record row : Type := Row {
  r_creator : string; r_coll : string; r_tok : option string; r_price : string;
  r_recipient : option string; r_finder : option string }.
Record index : Type := Index {
  ix_asks : gmap string row; ix_bids : gmap string row; ix_cbids : gmap string row;
  ix_config : list string; ix_denoms : gmap string string; ix_fees : gmap string string }.
Definition blank : index := Index ∅ ∅ ∅ [] ∅ ∅.
Definition read_row (ev : event) : row :=
  Row (text "creator" ev) (text "collection" ev) (field "token_id" (ev_attrs ev)) (text "price" ev)
      (field "recipient" (ev_attrs ev)) (field "finder" (ev_attrs ev)).
(** A change of an order: the creator is the one already known. *)
Definition reread (ev : event) (r : row) : row :=
  Row (r_creator r) (text "collection" ev) (field "token_id" (ev_attrs ev)) (text "price" ev)
      (field "recipient" (ev_attrs ev)) (field "finder" (ev_attrs ev)).
Definition config_keys : list string :=
  ["fee_manager"; "royalty_registry"; "protocol_fee_bps"; "max_royalty_fee_bps"; "maker_reward_bps"; "taker_reward_bps";
   "default_denom"].
Definition opt_delete (o : option string) (m : gmap string row) : gmap string row :=
  match o with Some i => delete i m | None => m end.
Definition see (ix : index) (ev : event) : index :=
  let '(Index a b c cf dn fe) := ix in
  let ty := ev_type ev in let i := text "id" ev in
  if (ty =? "set-ask")%string then Index (<[i := read_row ev]> a) b c cf dn fe
  else if (ty =? "update-ask")%string then Index (alter (reread ev) i a) b c cf dn fe
  else if (ty =? "remove-ask")%string then Index (delete i a) b c cf dn fe
  else if (ty =? "set-bid")%string then Index a (<[i := read_row ev]> b) c cf dn fe
  else if (ty =? "update-bid")%string then Index a (alter (reread ev) i b) c cf dn fe
  else if (ty =? "remove-bid")%string then Index a (delete i b) c cf dn fe
  else if (ty =? "set-collection-bid")%string then Index a b (<[i := read_row ev]> c) cf dn fe
  else if (ty =? "update-collection-bid")%string then Index a b (alter (reread ev) i c) cf dn fe
  else if (ty =? "remove-collection-bid")%string then Index a b (delete i c) cf dn fe
  else if (ty =? "finalize-sale")%string then
    Index (delete (text "ask" ev) a) (opt_delete (field "bid" (ev_attrs ev)) b)
          (opt_delete (field "collection_bid" (ev_attrs ev)) c) cf dn fe
  else if (ty =? "set-config")%string then Index a b c (map (fun k => text k ev) config_keys) dn fe
  else if (ty =? "set-collection-denom")%string then Index a b c cf (<[text "collection" ev := text "denom" ev]> dn) fe
  else if (ty =? "set-listing-fee")%string then Index a b c cf dn (<[text "denom" ev := text "fee" ev]> fe)
  else if (ty =? "remove-listing-fee")%string then Index a b c cf dn (delete (text "denom" ev) fe)
  else ix.
Definition observe (evs : list event) : index := fold_left see evs blank.

(** * The truth *)
Definition ask_row (a : ask) : row :=
  Row (a_creator a) (a_coll a) (Some (a_tok a)) (coin_text (d_price (a_det a))) (d_recipient (a_det a)) (d_finder (a_det a)).
Definition bid_row (b : bid) : row :=
  Row (b_creator b) (b_coll b) (Some (b_tok b)) (coin_text (d_price (b_det b))) (d_recipient (b_det b)) (d_finder (b_det b)).
Definition cbid_row (b : cbid) : row :=
  Row (cb_creator b) (cb_coll b) None (coin_text (d_price (cb_det b))) (d_recipient (cb_det b)) (d_finder (cb_det b)).
Definition config_texts (c : config) : list string :=
  [cf_fee_manager c; cf_registry c; pretty (cf_protocol_bps c); pretty (cf_max_royalty_bps c); pretty (cf_maker_bps c);
   pretty (cf_taker_bps c); cf_default_denom c].
Definition truth (st : state) : index :=
  Index (ask_row <$> s_asks st) (bid_row <$> s_bids st) (cbid_row <$> s_cbids st)
        (config_texts (s_config st)) (s_denoms st) (pretty <$> s_fees st).

(** The storage after some calls, with all events so far. *)
Inductive v2_log (p : params) : state -> list event -> Prop :=
  | LogStart c st : instantiate p c = Ok st -> v2_log p st (instantiate_events c)
  | LogCall st evs v e sender funds m st' msgs :
      v2_log p st evs -> sender <> p_self p -> execute p v e sender funds st m = Ok (st', msgs) ->
      v2_log p st' (evs ++ call_events p v e sender st m).

(** The same orders and settings; only the counter for order ids may differ. *)
Definition same_book (st st' : state) : Prop :=
  s_asks st = s_asks st' /\ s_bids st = s_bids st' /\ s_cbids st = s_cbids st' /\
  s_config st = s_config st' /\ s_denoms st = s_denoms st' /\ s_fees st = s_fees st'.
(** The prices are in denoms as the bank has them. *)
Definition bank_denoms (st : state) : Prop :=
  (forall i a, s_asks st !! i = Some a -> lettered (c_denom (d_price (a_det a)))) /\
  (forall i b, s_bids st !! i = Some b -> lettered (c_denom (d_price (b_det b)))) /\
  (forall i b, s_cbids st !! i = Some b -> lettered (c_denom (d_price (cb_det b)))).

(** * Sales *)
(** The payments of a sale with the name under which each is reported. *)
Definition named_dues (p : params) (v : view) (cfg : config) (a : ask) (mb : matching_bid) (ask_first : bool)
  : list (string * (addr * N)) :=
  let price := c_amount (trade_price a mb ask_first) in
  let mk := maker a mb ask_first in let tk := taker a mb ask_first in
  [("protocol", (cf_fee_manager cfg, protocol_part cfg price mk tk))] ++
  (match mk with Some x => [("maker", (x, reward_part cfg price mk (cf_maker_bps cfg)))] | None => [] end) ++
  (match tk with Some x => [("taker", (x, reward_part cfg price tk (cf_taker_bps cfg)))] | None => [] end) ++
  (match royalty_due p v cfg (a_coll a) with Some (r, s) => [("royalty", (r, royalty_part cfg price s))] | None => [] end).
Definition named_payments (p : params) (v : view) (cfg : config) (a : ask) (mb : matching_bid) (ask_first : bool)
  : list (string * (addr * N)) :=
  let dues := named_dues p v cfg a mb ask_first in
  List.filter (fun x => 0 <? snd (snd x))
    (dues ++ [("seller", (proceeds_to a, c_amount (trade_price a mb ask_first) - total_dues (snd <$> dues)))]).
(** The report of a sale: what was sold at which price, who receives the NFT and the proceeds, which orders are gone, and
    the amount of each payment. *)
Definition sale_report (p : params) (v : view) (cfg : config) (a : ask) (mb : matching_bid) (ask_first : bool) : event :=
  let price := trade_price a mb ask_first in
  Event "finalize-sale"
    ([("collection", a_coll a); ("token_id", a_tok a); ("denom", c_denom price); ("price", pretty (c_amount price));
      ("seller_recipient", proceeds_to a); ("nft_recipient", nft_to mb); ("ask", a_id a);
      match mb with MBid b => ("bid", b_id b) | MCBid b => ("collection_bid", cb_id b) end] ++
     ((fun x => (fst x, pretty (snd (snd x)))) <$> named_payments p v cfg a mb ask_first)).
