(** Model of contracts/stargaze-marketplace-v2.  File references are relative to
    /repo/contracts/stargaze-marketplace-v2/src.  Events and attributes are not modelled; everything else follows
    the Rust code function by function, in the same order of checks. *)
From Verif Require Import Base Common IndexRange.

(** state.rs:16-31 *)
Record config : Type := Config {
  cf_fee_manager : addr;
  cf_registry : addr;
  cf_protocol_bps : N;
  cf_max_royalty_bps : N;
  cf_maker_bps : N;
  cf_taker_bps : N;
  cf_default_denom : denom;
}.

(** orders.rs:18-23 *)
Record details : Type := Details { d_price : coin; d_recipient : option addr; d_finder : option addr }.

(** orders.rs:40-47 *)
Record ask : Type := Ask { a_id : order_id; a_creator : addr; a_coll : addr; a_tok : token; a_det : details }.
(** orders.rs:160-167 *)
Record bid : Type := Bid { b_id : order_id; b_creator : addr; b_coll : addr; b_tok : token; b_det : details }.
(** orders.rs:251-257 *)
Record cbid : Type := CBid { cb_id : order_id; cb_creator : addr; cb_coll : addr; cb_det : details }.

Global Instance details_eq_dec : EqDecision details. Proof. solve_decision. Defined.
Global Instance ask_eq_dec : EqDecision ask. Proof. solve_decision. Defined.
Global Instance bid_eq_dec : EqDecision bid. Proof. solve_decision. Defined.
Global Instance cbid_eq_dec : EqDecision cbid. Proof. solve_decision. Defined.

(** orders.rs:35-38 *)
Inductive matching_bid : Type := MBid (b : bid) | MCBid (cb : cbid).

(** state.rs:65-71 and the three IndexedMaps 88-183, keyed by order id. *)
Record state : Type := State {
  s_config : config;
  s_denoms : gmap addr denom;
  s_fees : gmap denom N;
  s_nonce : N;
  s_asks : gmap order_id ask;
  s_bids : gmap order_id bid;
  s_cbids : gmap order_id cbid;
}.
Definition set_config st c := State c (s_denoms st) (s_fees st) (s_nonce st) (s_asks st) (s_bids st) (s_cbids st).
Definition set_denoms st x := State (s_config st) x (s_fees st) (s_nonce st) (s_asks st) (s_bids st) (s_cbids st).
Definition set_fees st x := State (s_config st) (s_denoms st) x (s_nonce st) (s_asks st) (s_bids st) (s_cbids st).
Definition set_nonce st x := State (s_config st) (s_denoms st) (s_fees st) x (s_asks st) (s_bids st) (s_cbids st).
Definition set_asks st x := State (s_config st) (s_denoms st) (s_fees st) (s_nonce st) x (s_bids st) (s_cbids st).
Definition set_bids st x := State (s_config st) (s_denoms st) (s_fees st) (s_nonce st) (s_asks st) x (s_cbids st).
Definition set_cbids st x := State (s_config st) (s_denoms st) (s_fees st) (s_nonce st) (s_asks st) (s_bids st) x.

Section Model.
Context (p : params).

(** * helpers.rs *)

(** helpers.rs:23-29: one hash over the concatenation of the components, without separators. *)
Definition generate_id (components : list string) : string := p_hash p (String.concat "" components).

(** helpers.rs:18-21 *)
Definition token_index_str (coll : addr) (tok : token) : string := coll +:+ "/" +:+ tok.

(** helpers.rs:31-53 *)
Definition only_contract_admin (v : view) (sender : addr) : result unit :=
  match q_admin v with
  | None => Err EStd
  | Some None => Err EUnauthorized
  | Some (Some admin) => ensure (bool_decide (sender = admin)) EUnauthorized
  end.

(** helpers.rs:55-75 *)
Definition only_valid_price (st : state) (cfg : config) (coll : addr) (price : coin) : result unit :=
  ensure (0 <? c_amount price) EInvalidInput ;;
  let collection_denom := default (cf_default_denom cfg) (s_denoms st !! coll) in
  ensure (bool_decide (collection_denom = c_denom price)) EInvalidInput.

(** constants.rs:5 *)
Definition MAX_BASIS_POINTS : N := 10000.

(** state.rs:48-62 (validation part of [Config::save]) *)
Definition config_check (c : config) : result unit :=
  ensure (cf_protocol_bps c <? MAX_BASIS_POINTS) EInvalidInput ;;
  rewards ← add64 (cf_maker_bps c) (cf_taker_bps c);
  ensure (rewards <? MAX_BASIS_POINTS) EInvalidInput.

(** state.rs:34-44 *)
Definition config_str_to_addr (c : config) : result config :=
  fm ← addr_validate p (cf_fee_manager c);
  rr ← addr_validate p (cf_registry c);
  Ok (Config fm rr (cf_protocol_bps c) (cf_max_royalty_bps c) (cf_maker_bps c) (cf_taker_bps c)
             (cf_default_denom c)).

(** orders.rs:26-32 *)
Definition details_str_to_addr (d : details) : result details :=
  r ← maybe_addr p (d_recipient d);
  f ← maybe_addr p (d_finder d);
  Ok (Details (d_price d) r f).

(** helpers.rs:77-82 *)
Record protocol_fees : Type := ProtocolFees { pf_protocol : N; pf_maker : N; pf_taker : N }.

(** helpers.rs:84-112.  [Decimal - Decimal] panics on underflow. *)
Definition divide_protocol_fees (c : config) (maker_exists taker_exists : bool) : result protocol_fees :=
  let full := dec_bps (cf_protocol_bps c) in
  if full =? 0 then Ok (ProtocolFees 0 0 0)
  else
    r1 ← (if maker_exists && (0 <? cf_maker_bps c)
          then mr ← dec_checked_mul full (dec_bps (cf_maker_bps c));
               rest ← sub128 full mr;
               Ok (rest, mr)
          else Ok (full, 0));
    let '(p1, maker) := r1 in
    r2 ← (if taker_exists && (0 <? cf_taker_bps c)
          then tr ← dec_checked_mul full (dec_bps (cf_taker_bps c));
               rest ← sub128 p1 tr;
               Ok (rest, tr)
          else Ok (p1, 0));
    let '(p2, taker) := r2 in
    Ok (ProtocolFees p2 maker taker).

(** * orders.rs *)

(** orders.rs:50-63 *)
Definition ask_new (creator coll : addr) (tok : token) (d : details) : ask :=
  Ask (generate_id [coll; tok]) creator coll tok d.
(** orders.rs:170-190 *)
Definition bid_new (creator coll : addr) (tok : token) (d : details) (height nonce : N) : bid :=
  Bid (generate_id [coll; tok; be8 height; be8 nonce]) creator coll tok d.
(** orders.rs:260-277 *)
Definition cbid_new (creator coll : addr) (d : details) (height nonce : N) : cbid :=
  CBid (generate_id [coll; be8 height; be8 nonce]) creator coll d.

(** orders.rs:65-67, 192-194, 279-281 *)
Definition ask_recipient (a : ask) : addr := address_or (d_recipient (a_det a)) (a_creator a).
Definition bid_recipient (b : bid) : addr := address_or (d_recipient (b_det b)) (b_creator b).
Definition cbid_recipient (cb : cbid) : addr := address_or (d_recipient (cb_det cb)) (cb_creator cb).

(** * query.rs *)
Definition ask_amount (x : order_id * ask) : N := c_amount (d_price (a_det (snd x))).
Definition bid_amount (x : order_id * bid) : N := c_amount (d_price (b_det (snd x))).
Definition cbid_amount (x : order_id * cbid) : N := c_amount (d_price (cb_det (snd x))).
(** the (amount, id) suffix of the price indexes, state.rs:90-100, 127-137, 165-175 *)
Definition ask_pkey (x : order_id * ask) : pkey := (ask_amount x, fst x).
Definition bid_pkey (x : order_id * bid) : pkey := (bid_amount x, fst x).
Definition cbid_pkey (x : order_id * cbid) : pkey := (cbid_amount x, fst x).

(** query.rs:118-141 with the index prefix of state.rs:90-100 *)
Definition query_asks_by_collection_denom (st : state) (coll : addr) (dn : denom) (o : qopts pkey) : list ask :=
  snd <$> index_range pkey_leb ask_pkey
    (List.filter (fun x => bool_decide (a_coll (snd x) = coll) && bool_decide (c_denom (d_price (a_det (snd x))) = dn))
                 (map_to_list (s_asks st))) o.
(** query.rs:181-208 with the index prefix of state.rs:127-137 *)
Definition query_bids_by_token_price (st : state) (coll : addr) (tok : token) (dn : denom) (o : qopts pkey) : list bid :=
  snd <$> index_range pkey_leb bid_pkey
    (List.filter (fun x => bool_decide (token_index_str (b_coll (snd x)) (b_tok (snd x)) = token_index_str coll tok)
                           && bool_decide (c_denom (d_price (b_det (snd x))) = dn))
                 (map_to_list (s_bids st))) o.
(** query.rs:248-271 with the index prefix of state.rs:165-175 *)
Definition query_collection_bids_by_price (st : state) (coll : addr) (dn : denom) (o : qopts pkey) : list cbid :=
  snd <$> index_range pkey_leb cbid_pkey
    (List.filter (fun x => bool_decide (cb_coll (snd x) = coll) && bool_decide (c_denom (d_price (cb_det (snd x))) = dn))
                 (map_to_list (s_cbids st))) o.

(** query.rs:143-166, 210-233, 273-296 with the creator_collection indexes *)
Definition query_asks_by_creator_collection (st : state) (creator coll : addr) (o : qopts string) : list ask :=
  snd <$> index_range str_leb fst
    (List.filter (fun x => bool_decide (a_creator (snd x) = creator) && bool_decide (a_coll (snd x) = coll))
                 (map_to_list (s_asks st))) o.
Definition query_bids_by_creator_collection (st : state) (creator coll : addr) (o : qopts string) : list bid :=
  snd <$> index_range str_leb fst
    (List.filter (fun x => bool_decide (b_creator (snd x) = creator) && bool_decide (b_coll (snd x) = coll))
                 (map_to_list (s_bids st))) o.
Definition query_collection_bids_by_creator_collection (st : state) (creator coll : addr) (o : qopts string) : list cbid :=
  snd <$> index_range str_leb fst
    (List.filter (fun x => bool_decide (cb_creator (snd x) = creator) && bool_decide (cb_coll (snd x) = coll))
                 (map_to_list (s_cbids st))) o.

(** query.rs:105-116, 168-179, 235-246 *)
Definition query_asks (st : state) (ids : list order_id) : list ask := omap (fun i => s_asks st !! i) ids.
Definition query_bids (st : state) (ids : list order_id) : list bid := omap (fun i => s_bids st !! i) ids.
Definition query_collection_bids (st : state) (ids : list order_id) : list cbid := omap (fun i => s_cbids st !! i) ids.
(** query.rs:97-103 *)
Definition query_config (st : state) : config := s_config st.
Definition query_collection_denom (st : state) (coll : addr) : option denom := s_denoms st !! coll.

(** [Vec::pop]: the last element. *)
Definition vec_pop {A} (l : list A) : option A := last l.

(** * Matching *)

(** orders.rs:79-127 *)
Definition match_with_bid (st : state) (a : ask) : option matching_bid :=
  let price := d_price (a_det a) in
  let o := QOpts (Some true) (Some 1) (Some (BIncl (c_amount price, ""))) None in
  let top_bid := vec_pop (query_bids_by_token_price st (a_coll a) (a_tok a) (c_denom price) o) in
  let top_cbid := vec_pop (query_collection_bids_by_price st (a_coll a) (c_denom price) o) in
  match top_bid, top_cbid with
  | Some b, Some cb =>
      if c_amount (d_price (cb_det cb)) <=? c_amount (d_price (b_det b)) then Some (MBid b) else Some (MCBid cb)
  | Some b, None => Some (MBid b)
  | None, Some cb => Some (MCBid cb)
  | None, None => None
  end.

(** orders.rs:206-218 *)
Definition bid_match_with_ask (st : state) (b : bid) : option ask :=
  match s_asks st !! generate_id [b_coll b; b_tok b] with
  | Some a => if has_coins [d_price (b_det b)] (d_price (a_det a)) then Some a else None
  | None => None
  end.

(** orders.rs:293-311.  [u128 + 1] panics at the maximum. *)
Definition cbid_match_with_ask (st : state) (cb : cbid) : result (option ask) :=
  let price := d_price (cb_det cb) in
  bound ← add128 (c_amount price) 1;
  let o := QOpts (Some false) (Some 1) None (Some (BExcl (bound, ""))) in
  Ok (vec_pop (query_asks_by_collection_denom st (cb_coll cb) (c_denom price) o)).

(** * helpers.rs:114-225 *)
Definition mb_recipient (mb : matching_bid) : addr :=
  match mb with MBid b => bid_recipient b | MCBid cb => cbid_recipient cb end.
Definition mb_det (mb : matching_bid) : details :=
  match mb with MBid b => b_det b | MCBid cb => cb_det cb end.

(** The fee list built in helpers.rs:140-181 (the [unwrap]s cannot fail: a nonzero reward needs the finder). *)
Definition sale_fees (cfg : config) (pf : protocol_fees) (maker taker : option addr)
    (royalty : option royalty_entry) : list fee :=
  (if 0 <? pf_protocol pf then [Fee (pf_protocol pf) (cf_fee_manager cfg)] else []) ++
  (if 0 <? pf_maker pf then match maker with Some m => [Fee (pf_maker pf) m] | None => [] end else []) ++
  (if 0 <? pf_taker pf then match taker with Some t => [Fee (pf_taker pf) t] | None => [] end else []) ++
  (match royalty with
   | Some re => [Fee (N.min (re_share re) (dec_bps (cf_max_royalty_bps cfg))) (re_recipient re)]
   | None => []
   end).

Definition finalize_sale (v : view) (st : state) (a : ask) (cfg : config) (mb : matching_bid)
    (ask_before_bid : bool) (resp : list cmsg) : result (state * list cmsg) :=
  let nft_recipient := mb_recipient mb in
  let bd := mb_det mb in
  let '(sale_price, maker, taker) :=
    if ask_before_bid then (d_price (a_det a), d_finder (a_det a), d_finder bd)
    else (d_price bd, d_finder bd, d_finder (a_det a)) in
  let seller_recipient := ask_recipient a in
  pf ← divide_protocol_fees cfg (bool_decide (is_Some maker)) (bool_decide (is_Some taker));
  rr ← fetch_or_set_royalties p v (cf_registry cfg) (a_coll a) (Some (p_self p)) resp;
  let '(royalty, resp) := rr in
  ps ← build_payments sale_price seller_recipient (sale_fees cfg pf maker taker royalty);
  let resp := payout ps resp in
  let resp := transfer_nft (a_coll a) (a_tok a) nft_recipient resp in
  (* ask.remove, bid.remove / collection_bid.remove: orders.rs:74-77, 201-204, 288-291 *)
  let st := set_asks st (delete (a_id a) (s_asks st)) in
  let st := match mb with
            | MBid b => set_bids st (delete (b_id b) (s_bids st))
            | MCBid cb => set_cbids st (delete (cb_id cb) (s_cbids st))
            end in
  Ok (st, resp).

(** * execute.rs *)
Section Exec.
Context (v : view) (e : env) (sender : addr) (funds : list coin).

(** execute.rs:151-169 *)
Definition execute_update_config (st : state) (c : config) : result (state * list cmsg) :=
  only_contract_admin v sender ;;
  config_check c ;;
  Ok (set_config st c, []).
(** execute.rs:171-192 *)
Definition execute_update_collection_denom (st : state) (coll : addr) (dn : denom) : result (state * list cmsg) :=
  only_contract_admin v sender ;;
  Ok (set_denoms st (<[coll := dn]> (s_denoms st)), []).
(** execute.rs:194-214 *)
Definition execute_set_listing_fee (st : state) (f : coin) : result (state * list cmsg) :=
  only_contract_admin v sender ;;
  Ok (set_fees st (<[c_denom f := c_amount f]> (s_fees st)), []).
(** execute.rs:216-236 *)
Definition execute_remove_listing_fee (st : state) (dn : denom) : result (state * list cmsg) :=
  only_contract_admin v sender ;;
  Ok (set_fees st (delete dn (s_fees st)), []).

(** execute.rs:238-318 *)
Definition execute_set_ask (st : state) (coll : addr) (tok : token) (d : details) (sell_now : bool)
  : result (state * list cmsg) :=
  only_owner v sender coll tok ;;
  only_tradable v e coll ;;
  let cfg := s_config st in
  only_valid_price st cfg coll (d_price d) ;;
  listing_payment ← one_coin funds;
  match s_fees st !! c_denom listing_payment with
  | Some fee => ensure (bool_decide (c_amount listing_payment = fee)) EInvalidInput
  | None => Err EInvalidInput
  end ;;
  let resp := transfer_coin listing_payment (cf_fee_manager cfg) [] in
  let a := ask_new sender coll tok d in
  match match_with_bid st a with
  | Some mb => finalize_sale v st a cfg mb false resp
  | None =>
      if sell_now then Err ENoMatch
      else
        let resp := transfer_nft (a_coll a) (a_tok a) (p_self p) resp in
        match s_asks st !! a_id a with
        | Some _ => Err ECollision
        | None => Ok (set_asks st (<[a_id a := a]> (s_asks st)), resp)
        end
  end.

(** execute.rs:320-376 *)
Definition execute_update_ask (st : state) (id : order_id) (d : details) : result (state * list cmsg) :=
  nonpayable funds ;;
  let cfg := s_config st in
  a ← (match s_asks st !! id with Some a => Ok a | None => Err EInvalidInput end);
  ensure (bool_decide (sender = a_creator a)) EUnauthorized ;;
  only_valid_price st cfg (a_coll a) (d_price d) ;;
  let a := Ask (a_id a) (a_creator a) (a_coll a) (a_tok a) d in
  match match_with_bid st a with
  | Some mb => finalize_sale v st a cfg mb false []
  | None => Ok (set_asks st (<[a_id a := a]> (s_asks st)), [])
  end.

(** execute.rs:378-417 *)
Definition execute_remove_ask (st : state) (id : order_id) : result (state * list cmsg) :=
  nonpayable funds ;;
  a ← (match s_asks st !! id with Some a => Ok a | None => Err EInvalidInput end);
  ensure (bool_decide (sender = a_creator a)) EUnauthorized ;;
  let resp := transfer_nft (a_coll a) (a_tok a) (ask_recipient a) [] in
  Ok (set_asks st (delete (a_id a) (s_asks st)), resp).

(** [funds.sub(..).map_err(|_| InsufficientFunds)] *)
Definition funds_sub (fs : list coin) (c : coin) : result (list coin) :=
  match nb_sub fs c with Ok l => Ok l | Err _ => Err EInsufficient end.
(** "Transfer remaining funds back to user", execute.rs:465-468 and the four similar places *)
Definition refund_rest (fs : list coin) (resp : list cmsg) : list cmsg :=
  if nb_is_empty fs then resp else transfer_coins fs sender resp.
(** execute.rs:442-443 and the two similar places *)
Definition next_nonce (st : state) : N := wrapping_succ64 (s_nonce st).

(** execute.rs:419-471 *)
Definition execute_accept_ask (st : state) (id : order_id) (d : details) : result (state * list cmsg) :=
  fs ← nb_normalize funds;
  a ← (match s_asks st !! id with Some a => Ok a | None => Err EInvalidInput end);
  ensure (has_coins [d_price d] (d_price (a_det a))) EInvalidInput ;;
  fs ← funds_sub fs (d_price (a_det a));
  let nonce := next_nonce st in
  let st := set_nonce st nonce in
  let b := bid_new sender (a_coll a) (a_tok a) d (e_height e) nonce in
  r ← finalize_sale v st a (s_config st) (MBid b) true [];
  let '(st, resp) := r in
  Ok (st, refund_rest fs resp).

(** execute.rs:473-563 *)
Definition execute_set_bid (st : state) (coll : addr) (tok : token) (d : details) (buy_now : bool)
  : result (state * list cmsg) :=
  only_tradable v e coll ;;
  only_valid_price st (s_config st) coll (d_price d) ;;
  fs ← nb_normalize funds;
  let nonce := next_nonce st in
  let st := set_nonce st nonce in
  let b := bid_new sender coll tok d (e_height e) nonce in
  match bid_match_with_ask st b with
  | Some a =>
      fs ← funds_sub fs (d_price (a_det a));
      r ← finalize_sale v st a (s_config st) (MBid b) true [];
      let '(st, resp) := r in
      Ok (st, refund_rest fs resp)
  | None =>
      if buy_now then Err ENoMatch
      else
        fs ← funds_sub fs (d_price (b_det b));
        match s_bids st !! b_id b with
        | Some _ => Err ECollision
        | None => Ok (set_bids st (<[b_id b := b]> (s_bids st)), refund_rest fs [])
        end
  end.

(** execute.rs:565-648 *)
Definition execute_update_bid (st : state) (id : order_id) (d : details) : result (state * list cmsg) :=
  b ← (match s_bids st !! id with Some b => Ok b | None => Err EInvalidInput end);
  ensure (bool_decide (sender = b_creator b)) EUnauthorized ;;
  only_valid_price st (s_config st) (b_coll b) (d_price d) ;;
  fs ← nb_normalize funds;
  fs ← nb_add fs (d_price (b_det b));
  let b := Bid (b_id b) (b_creator b) (b_coll b) (b_tok b) d in
  match bid_match_with_ask st b with
  | Some a =>
      fs ← funds_sub fs (d_price (a_det a));
      r ← finalize_sale v st a (s_config st) (MBid b) true [];
      let '(st, resp) := r in
      Ok (st, refund_rest fs resp)
  | None =>
      fs ← funds_sub fs (d_price (b_det b));
      Ok (set_bids st (<[b_id b := b]> (s_bids st)), refund_rest fs [])
  end.

(** execute.rs:650-686 *)
Definition execute_remove_bid (st : state) (id : order_id) : result (state * list cmsg) :=
  nonpayable funds ;;
  b ← (match s_bids st !! id with Some b => Ok b | None => Err EInvalidInput end);
  ensure (bool_decide (sender = b_creator b)) EUnauthorized ;;
  let st := set_bids st (delete (b_id b) (s_bids st)) in
  Ok (st, transfer_coin (d_price (b_det b)) sender []).

(** execute.rs:704-723 and 975-997: the ask sold by an accept call *)
Definition accept_bid_ask (st : state) (coll : addr) (tok : token) (d : details) : result ask :=
  match s_asks st !! generate_id [coll; tok] with
  | Some a => ensure (bool_decide (sender = a_creator a)) EUnauthorized ;; Ok a
  | None => only_owner v sender coll tok ;; Ok (ask_new sender coll tok d)
  end.

(** execute.rs:688-737 *)
Definition execute_accept_bid (st : state) (id : order_id) (d : details) : result (state * list cmsg) :=
  b ← (match s_bids st !! id with Some b => Ok b | None => Err EInvalidInput end);
  ensure (has_coins [d_price (b_det b)] (d_price d)) EInvalidInput ;;
  a ← accept_bid_ask st (b_coll b) (b_tok b) d;
  finalize_sale v st a (s_config st) (MBid b) false [].

(** execute.rs:739-829 *)
Definition execute_set_collection_bid (st : state) (coll : addr) (d : details) (buy_now : bool)
  : result (state * list cmsg) :=
  only_tradable v e coll ;;
  only_valid_price st (s_config st) coll (d_price d) ;;
  fs ← nb_normalize funds;
  let nonce := next_nonce st in
  let st := set_nonce st nonce in
  let cb := cbid_new sender coll d (e_height e) nonce in
  matching ← cbid_match_with_ask st cb;
  match matching with
  | Some a =>
      fs ← funds_sub fs (d_price (a_det a));
      r ← finalize_sale v st a (s_config st) (MCBid cb) true [];
      let '(st, resp) := r in
      Ok (st, refund_rest fs resp)
  | None =>
      if buy_now then Err ENoMatch
      else
        fs ← funds_sub fs (d_price (cb_det cb));
        match s_cbids st !! cb_id cb with
        | Some _ => Err ECollision
        | None => Ok (set_cbids st (<[cb_id cb := cb]> (s_cbids st)), refund_rest fs [])
        end
  end.

(** execute.rs:831-918 *)
Definition execute_update_collection_bid (st : state) (id : order_id) (d : details) : result (state * list cmsg) :=
  cb ← (match s_cbids st !! id with Some cb => Ok cb | None => Err EInvalidInput end);
  ensure (bool_decide (sender = cb_creator cb)) EUnauthorized ;;
  only_valid_price st (s_config st) (cb_coll cb) (d_price d) ;;
  fs ← nb_normalize funds;
  fs ← nb_add fs (d_price (cb_det cb));
  let cb := CBid (cb_id cb) (cb_creator cb) (cb_coll cb) d in
  matching ← cbid_match_with_ask st cb;
  match matching with
  | Some a =>
      fs ← funds_sub fs (d_price (a_det a));
      r ← finalize_sale v st a (s_config st) (MCBid cb) true [];
      let '(st, resp) := r in
      Ok (st, refund_rest fs resp)
  | None =>
      fs ← funds_sub fs (d_price (cb_det cb));
      Ok (set_cbids st (<[cb_id cb := cb]> (s_cbids st)), refund_rest fs [])
  end.

(** execute.rs:920-956 *)
Definition execute_remove_collection_bid (st : state) (id : order_id) : result (state * list cmsg) :=
  nonpayable funds ;;
  cb ← (match s_cbids st !! id with Some cb => Ok cb | None => Err EInvalidInput end);
  ensure (bool_decide (sender = cb_creator cb)) EUnauthorized ;;
  let st := set_cbids st (delete (cb_id cb) (s_cbids st)) in
  Ok (st, transfer_coin (d_price (cb_det cb)) sender []).

(** execute.rs:958-1011 *)
Definition execute_accept_collection_bid (st : state) (id : order_id) (tok : token) (d : details)
  : result (state * list cmsg) :=
  cb ← (match s_cbids st !! id with Some cb => Ok cb | None => Err EInvalidInput end);
  ensure (has_coins [d_price (cb_det cb)] (d_price d)) EInvalidInput ;;
  a ← accept_bid_ask st (cb_coll cb) tok d;
  finalize_sale v st a (s_config st) (MCBid cb) false [].

End Exec.

(** msg.rs:16-95 *)
Inductive msg : Type :=
  | UpdateConfig (c : config)
  | UpdateCollectionDenom (coll : string) (dn : denom)
  | SetListingFee (f : coin)
  | RemoveListingFee (dn : denom)
  | SetAsk (coll : string) (tok : token) (d : details)
  | RemoveAsk (id : order_id)
  | UpdateAsk (id : order_id) (d : details)
  | AcceptAsk (id : order_id) (d : details)
  | SetBid (coll : string) (tok : token) (d : details)
  | RemoveBid (id : order_id)
  | UpdateBid (id : order_id) (d : details)
  | AcceptBid (id : order_id) (d : details)
  | SetCollectionBid (coll : string) (d : details)
  | RemoveCollectionBid (id : order_id)
  | UpdateCollectionBid (id : order_id) (d : details)
  | AcceptCollectionBid (id : order_id) (tok : token) (d : details)
  | SellNft (coll : string) (tok : token) (d : details)
  | BuySpecificNft (coll : string) (tok : token) (d : details)
  | BuyCollectionNft (coll : string) (d : details).

(** execute.rs:28-149 *)
Definition execute (v : view) (e : env) (sender : addr) (funds : list coin) (st : state) (m : msg)
  : result (state * list cmsg) :=
  match m with
  | UpdateConfig c => c ← config_str_to_addr c; execute_update_config v sender st c
  | UpdateCollectionDenom coll dn =>
      coll ← addr_validate p coll; execute_update_collection_denom v sender st coll dn
  | SetListingFee f => execute_set_listing_fee v sender st f
  | RemoveListingFee dn => execute_remove_listing_fee v sender st dn
  | SetAsk coll tok d =>
      coll ← addr_validate p coll; d ← details_str_to_addr d; execute_set_ask v e sender funds st coll tok d false
  | UpdateAsk id d => d ← details_str_to_addr d; execute_update_ask v sender funds st id d
  | RemoveAsk id => execute_remove_ask sender funds st id
  | AcceptAsk id d => d ← details_str_to_addr d; execute_accept_ask v e sender funds st id d
  | SetBid coll tok d =>
      coll ← addr_validate p coll; d ← details_str_to_addr d; execute_set_bid v e sender funds st coll tok d false
  | UpdateBid id d => d ← details_str_to_addr d; execute_update_bid v sender funds st id d
  | RemoveBid id => execute_remove_bid sender funds st id
  | AcceptBid id d => d ← details_str_to_addr d; execute_accept_bid v sender st id d
  | SetCollectionBid coll d =>
      coll ← addr_validate p coll; d ← details_str_to_addr d;
      execute_set_collection_bid v e sender funds st coll d false
  | UpdateCollectionBid id d => d ← details_str_to_addr d; execute_update_collection_bid v sender funds st id d
  | RemoveCollectionBid id => execute_remove_collection_bid sender funds st id
  | AcceptCollectionBid id tok d =>
      d ← details_str_to_addr d; execute_accept_collection_bid v sender st id tok d
  | SellNft coll tok d =>
      coll ← addr_validate p coll; d ← details_str_to_addr d; execute_set_ask v e sender funds st coll tok d true
  | BuySpecificNft coll tok d =>
      coll ← addr_validate p coll; d ← details_str_to_addr d; execute_set_bid v e sender funds st coll tok d true
  | BuyCollectionNft coll d =>
      coll ← addr_validate p coll; d ← details_str_to_addr d;
      execute_set_collection_bid v e sender funds st coll d true
  end.

(** instantiate.rs:16-45 *)
Definition instantiate (c : config) : result state :=
  c ← config_str_to_addr c;
  config_check c ;;
  Ok (State c ∅ ∅ 0 ∅ ∅ ∅).

(** migrate.rs:17-23: only rewrites the stored contract version, which nothing reads. *)
Definition migrate (st : state) : result state := Ok st.

End Model.
