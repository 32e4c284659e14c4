(** What the events of marketplace v1 should tell: an observer who sees nothing but events knows which orders there are, and
    every sale and every removal is reported truthfully. *)
From stdpp Require Import pretty.
From Verif Require Import Base Common Chain ChainFacts V1Model V1Spec Events V1Events.

(** * The observer *)
(** An ask as the observer knows it. *)
Record row : Type := Row {
  r_type : string; r_seller : string; r_price : string; r_reserve : option string; r_expires : string; r_active : string }.
(** Asks by collection and token, bids by collection, token and bidder, collection bids by collection and bidder; a bid is
    its price and when it expires.  Lists of operators and hooks. *)
Record index : Type := Index {
  ix_asks : gmap (string * string) row;
  ix_bids : gmap (string * string * string) (string * string);
  ix_cbids : gmap (string * string) (string * string);
  ix_operators : list string; ix_ask_hooks : list string; ix_bid_hooks : list string; ix_sale_hooks : list string }.
Definition read_ask (ev : event) : row :=
  Row (text "sale_type" ev) (text "seller" ev) (text "price" ev) (field "reserve_for" (ev_attrs ev)) (text "expires" ev) "true".
Definition reprice (ev : event) (r : row) : row :=
  Row (r_type r) (r_seller r) (text "price" ev) (r_reserve r) (r_expires r) (r_active r).
Definition reactivate (ev : event) (r : row) : row :=
  Row (r_type r) (r_seller r) (r_price r) (r_reserve r) (r_expires r) (text "is_active" ev).
(** Without its first occurrence. *)
Fixpoint drop_first (a : string) (l : list string) : list string :=
  match l with [] => [] | b :: l => if (b =? a)%string then l else b :: drop_first a l end.
Definition see_admin (ix : index) (ev : event) : index :=
  let '(Index a b c op ah bh sh) := ix in
  let act := text "action" ev in let h := text "hook" ev in let o := text "operator" ev in
  if (act =? "add_operator")%string then Index a b c (op ++ [o]) ah bh sh
  else if (act =? "remove_operator")%string then Index a b c (drop_first o op) ah bh sh
  else if (act =? "add_ask_hook")%string then Index a b c op (ah ++ [h]) bh sh
  else if (act =? "remove_ask_hook")%string then Index a b c op (drop_first h ah) bh sh
  else if (act =? "add_bid_hook")%string then Index a b c op ah (bh ++ [h]) sh
  else if (act =? "remove_bid_hook")%string then Index a b c op ah (drop_first h bh) sh
  else if (act =? "add_sale_hook")%string then Index a b c op ah bh (sh ++ [h])
  else if (act =? "remove_sale_hook")%string then Index a b c op ah bh (drop_first h sh)
  else ix.
(** [sold]: the call sold an NFT; then its set-bid event does not mean that a bid rests. *)
Definition see (sold : bool) (ix : index) (ev : event) : index :=
  let '(Index a b c op ah bh sh) := ix in
  let ty := ev_type ev in
  let nft := (text "collection" ev, text "token_id" ev) in
  let bid := (nft, text "bidder" ev) in
  let cbid := (text "collection" ev, text "bidder" ev) in
  if (ty =? "set-ask")%string then Index (<[nft := read_ask ev]> a) b c op ah bh sh
  else if (ty =? "update-ask")%string then Index (alter (reprice ev) nft a) b c op ah bh sh
  else if (ty =? "update-ask-state")%string then Index (alter (reactivate ev) nft a) b c op ah bh sh
  else if (ty =? "remove-ask")%string then Index (delete nft a) b c op ah bh sh
  else if (ty =? "finalize-sale")%string then Index (delete nft a) b c op ah bh sh
  else if (ty =? "set-bid")%string then
    Index a (if sold then delete bid b else <[bid := (text "bid_price" ev, text "expires" ev)]> b) c op ah bh sh
  else if (ty =? "remove-bid")%string || (ty =? "reject-bid")%string || (ty =? "accept-bid")%string ||
          (ty =? "remove-stale-bid")%string then Index a (delete bid b) c op ah bh sh
  else if (ty =? "set-collection-bid")%string then
    Index a b (<[cbid := (text "bid_price" ev, text "expires" ev)]> c) op ah bh sh
  else if (ty =? "remove-collection-bid")%string || (ty =? "accept-collection-bid")%string ||
          (ty =? "remove-stale-collection-bid")%string then Index a b (delete cbid c) op ah bh sh
  else if (ty =? "wasm")%string then see_admin ix ev
  else ix.
Definition sale_among (evs : list event) : bool := existsb (fun ev => (ev_type ev =? "finalize-sale")%string) evs.
(** The events of one call are read together. *)
Definition see_call (ix : index) (evs : list event) : index := fold_left (see (sale_among evs)) evs ix.
Definition observe (start : index) (log : list (list event)) : index := fold_left see_call log start.

(** * The truth *)
Definition ask_row (a : ask) : row :=
  Row (match k_type a with FixedPrice => "fixed_price" | Auction => "auction" end) (k_seller a)
      (coin_text (native (k_price a))) (k_reserve a) (time_text (k_expires a)) (if k_active a then "true" else "false").
Definition bid_row (b : bid) : string * string := (pretty (b_price b), time_text (b_expires b)).
Definition cbid_row (b : cbid) : string * string := (pretty (cb_price b), time_text (cb_expires b)).
(** Tokens are numbers in storage and texts in events. *)
Definition nft_key (k : string * N) : string * string := (fst k, pretty (snd k)).
Definition bid_key (k : string * N * string) : string * string * string := (nft_key (fst k), snd k).
Definition truth (st : state) : index :=
  Index (kmap nft_key (ask_row <$> s_asks st)) (kmap bid_key (bid_row <$> s_bids st)) (cbid_row <$> s_cbids st)
        (sp_operators (s_params st)) (s_ask_hooks st) (s_bid_hooks st) (s_sale_hooks st).

(** The storage after some calls since [st0], with the events of each call. *)
Inductive v1_log (p : params) (x : ext) (st0 : state) : state -> list (list event) -> Prop :=
  | LogStart : v1_log p x st0 st0 []
  | LogCall st log v e sender funds m st' msgs ty :
      v1_log p x st0 st log -> sender <> p_self p -> execute p x v e sender funds st m = Ok (st', msgs) ->
      v1_log p x st0 st' (log ++ [call_events p v e sender funds st ty m])
  | LogSudo st log v e m st' msgs :
      v1_log p x st0 st log -> sudo p v e st m = Ok (st', msgs) -> v1_log p x st0 st' (log ++ [sudo_events m]).

(** What the events do not tell of an order: where the funds go, and the finder's fee. *)
Definition told_ask (a : ask) : ask :=
  Ask (k_type a) (k_coll a) (k_tok a) (k_seller a) (k_price a) None (k_reserve a) None (k_expires a) (k_active a).
Definition told_bid (b : bid) : bid := Bid (b_coll b) (b_tok b) (b_bidder b) (b_price b) None (b_expires b).
Definition told_cbid (b : cbid) : cbid := CBid (cb_coll b) (cb_bidder b) (cb_price b) None (cb_expires b).
(** The same orders, up to that, the same operators and the same hooks. *)
Definition same_book (st st' : state) : Prop :=
  told_ask <$> s_asks st = told_ask <$> s_asks st' /\ told_bid <$> s_bids st = told_bid <$> s_bids st' /\
  told_cbid <$> s_cbids st = told_cbid <$> s_cbids st' /\ sp_operators (s_params st) = sp_operators (s_params st') /\
  s_ask_hooks st = s_ask_hooks st' /\ s_bid_hooks st = s_bid_hooks st' /\ s_sale_hooks st = s_sale_hooks st'.

(** * Reports *)
Definition sale_report (d : deal) : event :=
  Event "finalize-sale" [("collection", d_coll d); ("token_id", pretty (d_tok d)); ("seller", d_seller d);
    ("buyer", d_buyer d); ("price", pretty (d_price d)); ("asset_recipient", d_buyer_to d)].
(** The royalty that is paid. *)
Definition royalty_report (sp : split) (coll : addr) : list event :=
  match x_royalty sp with
  | Some (to, n) => [Event "royalty-payout" [("collection", coll); ("amount", coin_text (native n)); ("recipient", to)]]
  | None => []
  end.
(** The event with which the call itself is reported. *)
Definition call_type (m : msg) : string :=
  match m with
  | SetAsk _ _ _ _ _ _ _ _ => "set-ask" | RemoveAsk _ _ | RemoveStaleAsk _ _ => "remove-ask"
  | UpdateAskPrice _ _ _ => "update-ask" | SetBid _ _ _ _ _ | BuyNow _ _ _ _ _ | BuyFor _ _ _ _ _ _ => "set-bid"
  | RemoveBid _ _ => "remove-bid" | AcceptBid _ _ _ _ => "accept-bid" | RejectBid _ _ _ => "reject-bid"
  | SetCollectionBid _ _ _ => "set-collection-bid" | RemoveCollectionBid _ => "remove-collection-bid"
  | AcceptCollectionBid _ _ _ _ => "accept-collection-bid" | SyncAsk _ _ => "update-ask-state"
  | RemoveStaleBid _ _ _ => "remove-stale-bid" | RemoveStaleCollectionBid _ _ => "remove-stale-collection-bid"
  end.
Definition nft_moved (msgs : list cmsg) : Prop := exists c t to, MNft c t to ∈ msgs.
(** A sale: the deal was closed by the call, the messages carry it out, and the events tell of the royalty, of the deal and of
    the call. *)
Definition sale_told (x : ext) (v : view) (e : env) (s : addr) (f : list coin) (st : state) (m : msg) (msgs : list cmsg)
    (evs : list event) : Prop :=
  exists d ci last, closes v e s f st m d /\ q_info v (d_coll d) = Some ci /\
    msgs = deal_msgs x st m s ci d ++ hook_msgs (s_sale_hooks st) /\
    evs = royalty_report (deal_split st ci d) (d_coll d) ++ [sale_report d; last] /\ ev_type last = call_type m.
(** Removals: the amounts in the events are the amounts paid out, and the reason for which an ask is removed is the one given.
    A removal by the owner names no operator. *)
Definition removal_told (p : params) (v : view) (e : env) (s : addr) (st : state) (m : msg) (msgs : list cmsg) (evs : list event)
    : Prop :=
  match m with
  | RejectBid coll tok who => exists n,
      evs = [Event "reject-bid" [("collection", coll); ("token_id", pretty tok); ("bidder", who); ("price", pretty n)]] /\
      msgs = pay who n :: hook_msgs (s_bid_hooks st)
  | RemoveStaleBid coll tok who => exists n reward,
      evs = [Event "remove-stale-bid" [("collection", coll); ("token_id", pretty tok); ("bidder", who); ("operator", s);
                                       ("reward", pretty reward)]] /\
      msgs = pay who n :: pay s reward :: hook_msgs (s_bid_hooks st) /\
      option_map b_price (s_bids st !! (coll, tok, who)) = Some (n + reward)
  | RemoveStaleCollectionBid coll who => exists n reward,
      evs = [Event "remove-stale-collection-bid" [("collection", coll); ("bidder", who); ("operator", s); ("reward", pretty reward)]] /\
      msgs = [pay who n; pay s reward] /\ option_map cb_price (s_cbids st !! (coll, who)) = Some (n + reward)
  | RemoveStaleAsk coll tok => exists a (expired owned approved : bool),
      s_asks st !! (coll, tok) = Some a /\ (expired = true <-> ~ live e (k_expires a)) /\
      (owned = true <-> exists o, owns v o coll tok) /\ (approved = true <-> q_approval v coll (pretty tok) (p_self p) = true) /\
      (expired = true \/ owned = false \/ approved = false) /\
      evs = [Event "remove-ask" [("collection", coll); ("token_id", pretty tok); ("operator", s);
               ("expired", if expired then "true" else "false"); ("has_owner", if owned then "true" else "false");
               ("has_approval", if approved then "true" else "false")]]
  | RemoveAsk coll tok => owns v s coll tok /\ exists ev, evs = [ev] /\ ev_type ev = "remove-ask" /\ field "operator" (ev_attrs ev) = None
  | _ => True
  end.

(** * Hooks *)
Definition hook_kind (c : hook_call) : string :=
  match c with HAsk _ _ => "ask" | HSale _ _ _ _ _ => "sale" | HBid _ _ => "bid" | HCBid _ _ => "collection-bid" end.
