(** Model of contracts/marketplace (marketplace v1).  File references are relative to
    /repo/contracts/marketplace/src.  Events and attributes are in V1Events.v. *)
From stdpp Require Import pretty.
From Verif Require Import Base Common IndexRange.

(** sg_std::NATIVE_DENOM *)
Definition NATIVE_DENOM : denom := "ustars".
(** execute.rs:35, sudo.rs:14 *)
Definition MAX_FEE_BPS : N := 10000.
(** execute.rs:37 *)
Definition MAX_FIXED_PRICE_ASK_AMOUNT : N := 100000000000000.

(** The external crate sg1 (not in /repo): does the chain accept the messages of a fair burn of zero?  All theorems
    hold for both answers. *)
Record ext : Type := Ext { x_zero_burn : bool }.

(** * helpers.rs *)

(** helpers.rs:48-52, in seconds *)
Record expiry_range : Type := ExpiryRange { er_min : N; er_max : N }.
(** helpers.rs:61-68.  The upper end is only computed when the lower one is met; either way it is an error. *)
Definition expiry_is_valid (r : expiry_range) (e : env) (expires : N) : result unit :=
  lo ← t_plus_seconds (e_time e) (er_min r);
  ensure (lo <? expires) EInvalidInput ;;
  hi ← t_plus_seconds (e_time e) (er_max r);
  ensure (expires <=? hi) EInvalidInput.
(** helpers.rs:70-76 *)
Definition expiry_validate (r : expiry_range) : result unit := ensure (er_min r <=? er_max r) EInvalidInput.

(** * state.rs *)

(** cw_utils::Duration *)
Inductive duration : Type := DHeight (n : N) | DTime (secs : N).

(** state.rs:12-33; percentages are raw Decimals *)
Record sudo_params : Type := SudoParams {
  sp_trading_fee : N;
  sp_ask_expiry : expiry_range;
  sp_bid_expiry : expiry_range;
  sp_operators : list addr;
  sp_max_finders_fee : N;
  sp_min_price : N;
  sp_stale : duration;
  sp_reward : N;
  sp_listing_fee : N;
}.

(** state.rs:53-56 *)
Inductive sale_type : Type := FixedPrice | Auction.
Global Instance sale_type_eq_dec : EqDecision sale_type.
Proof. solve_decision. Defined.

(** state.rs:69-80; token ids are u32 *)
Record ask : Type := Ask {
  k_type : sale_type;
  k_coll : addr;
  k_tok : N;
  k_seller : addr;
  k_price : N;
  k_recipient : option addr;
  k_reserve : option addr;
  k_finders : option N;          (* finders_fee_bps *)
  k_expires : N;
  k_active : bool;
}.
(** state.rs:132-139 *)
Record bid : Type := Bid {
  b_coll : addr;
  b_tok : N;
  b_bidder : addr;
  b_price : N;
  b_finders : option N;
  b_expires : N;
}.
(** state.rs:230-236 *)
Record cbid : Type := CBid {
  cb_coll : addr;
  cb_bidder : addr;
  cb_price : N;
  cb_finders : option N;
  cb_expires : N;
}.
(** state.rs:82-86, 161-165, 238-242 *)
Definition is_expired (expires_at : N) (e : env) : bool := expires_at <=? e_time e.

(** state.rs:37-48, 109-128, 197-226, 272-297: the parameters, the hook lists and the three indexed maps.  The indexes
    are computed from the maps when scanned. *)
Record state : Type := State {
  s_params : sudo_params;
  s_asks : gmap (string * N) ask;
  s_bids : gmap (string * N * string) bid;
  s_cbids : gmap (string * string) cbid;
  s_ask_hooks : list addr;
  s_bid_hooks : list addr;
  s_sale_hooks : list addr;
  s_cbid_hooks : list addr;
}.
Definition set_params (st : state) (x : sudo_params) : state :=
  State x (s_asks st) (s_bids st) (s_cbids st) (s_ask_hooks st) (s_bid_hooks st) (s_sale_hooks st) (s_cbid_hooks st).
Definition set_asks (st : state) (x : gmap (string * N) ask) : state :=
  State (s_params st) x (s_bids st) (s_cbids st) (s_ask_hooks st) (s_bid_hooks st) (s_sale_hooks st) (s_cbid_hooks st).
Definition set_bids (st : state) (x : gmap (string * N * string) bid) : state :=
  State (s_params st) (s_asks st) x (s_cbids st) (s_ask_hooks st) (s_bid_hooks st) (s_sale_hooks st) (s_cbid_hooks st).
Definition set_cbids (st : state) (x : gmap (string * string) cbid) : state :=
  State (s_params st) (s_asks st) (s_bids st) x (s_ask_hooks st) (s_bid_hooks st) (s_sale_hooks st) (s_cbid_hooks st).
Definition set_hooks (st : state) (a b s : list addr) : state :=
  State (s_params st) (s_asks st) (s_bids st) (s_cbids st) a b s (s_cbid_hooks st).

(** state.rs:91-93, 170-172, 247-249 and execute.rs:1277-1288 *)
Definition store_ask (st : state) (a : ask) : state := set_asks st (<[(k_coll a, k_tok a) := a]> (s_asks st)).
Definition remove_ask (st : state) (coll : addr) (tok : N) : state := set_asks st (delete (coll, tok) (s_asks st)).
Definition store_bid (st : state) (b : bid) : state :=
  set_bids st (<[(b_coll b, b_tok b, b_bidder b) := b]> (s_bids st)).
Definition remove_bid (st : state) (coll : addr) (tok : N) (bidder : addr) : state :=
  set_bids st (delete (coll, tok, bidder) (s_bids st)).
Definition store_cbid (st : state) (b : cbid) : state := set_cbids st (<[(cb_coll b, cb_bidder b) := b]> (s_cbids st)).
Definition remove_cbid (st : state) (coll bidder : addr) : state := set_cbids st (delete (coll, bidder) (s_cbids st)).
(** [IndexedMap::load] *)
Definition load {A} (o : option A) : result A := match o with Some a => Ok a | None => Err ENotFound end.

(** * Hooks *)

(** msg.rs:473-478 *)
Inductive hook_action : Type := HCreate | HUpdate | HDelete.
(** msg.rs:434-565: what a hook contract is told. *)
Inductive hook_call : Type :=
  | HAsk (a : ask) (act : hook_action)
  | HSale (coll : addr) (tok : N) (price : coin) (seller buyer : addr)
  | HBid (b : bid) (act : hook_action)
  | HCBid (b : cbid) (act : hook_action).
(** A message of a response: a plain message, or a hook call sent with [SubMsg::reply_on_error]. *)
Inductive smsg : Type :=
  | SPlain (m : cmsg)
  | SHook (h : addr) (c : hook_call).
(** The same for the chain, which does not look into hook calls. *)
Definition erase (m : smsg) : cmsg := match m with SPlain m => m | SHook h _ => MHook h end.

(** execute.rs:1342-1347: the reply id of a hook call *)
Definition reply_id (c : hook_call) : N :=
  match c with HAsk _ _ => 1 | HSale _ _ _ _ _ => 2 | HBid _ _ => 3 | HCBid _ _ => 4 end.
(** execute.rs:1349-1389.  [failed]: the result passed to the reply is an error; [unwrap_err] panics otherwise. *)
Definition reply (id : N) (failed : bool) : result unit :=
  ensure ((1 <=? id) && (id <=? 4)) EPanic ;;
  ensure failed EPanic.

(** execute.rs:1391-1461, [sg_controllers::Hooks::prepare_hooks]: one submessage for each registered hook. *)
Definition prepare (hooks : list addr) (c : hook_call) : list smsg := map (fun h => SHook h c) hooks.
Definition prepare_ask_hook (st : state) (a : ask) (act : hook_action) : list smsg := prepare (s_ask_hooks st) (HAsk a act).
Definition prepare_bid_hook (st : state) (b : bid) (act : hook_action) : list smsg := prepare (s_bid_hooks st) (HBid b act).
Definition prepare_cbid_hook (st : state) (b : cbid) (act : hook_action) : list smsg := prepare (s_cbid_hooks st) (HCBid b act).
Definition prepare_sale_hook (st : state) (a : ask) (buyer : addr) : list smsg :=
  prepare (s_sale_hooks st) (HSale (k_coll a) (k_tok a) (Coin NATIVE_DENOM (k_price a)) (k_seller a) buyer).

(** * Small helpers of execute.rs *)

(** [token_id.to_string()] *)
Definition tok_str (t : N) : token := pretty t.
Definition send (to : addr) (n : N) : smsg := SPlain (MSend to [Coin NATIVE_DENOM n]).

(** execute.rs:1265-1275 *)
Definition price_validate (st : state) (price : coin) : result unit :=
  ensure (negb (c_amount price =? 0) && bool_decide (c_denom price = NATIVE_DENOM)) EInvalidInput ;;
  ensure (sp_min_price (s_params st) <=? c_amount price) EInvalidInput.
(** execute.rs:1290-1303: a failed query is an error *)
Definition only_owner (v : view) (sender coll : addr) (tok : N) : result unit :=
  match q_owner v coll (tok_str tok) with
  | Some o => ensure (bool_decide (o = sender)) EUnauthorized
  | None => Err EStd
  end.
(** execute.rs:1306-1327: a failed query counts as tradable *)
Definition only_tradable (v : view) (e : env) (coll : addr) : result unit :=
  match q_info v coll with
  | Some ci =>
      match ci_start ci with
      | Some start => if e_time e <? start then Err ENotTradable else Ok tt
      | None => Ok tt
      end
  | None => Ok tt
  end.
(** execute.rs:1329-1340 *)
Definition only_operator (st : state) (sender : addr) : result unit :=
  ensure (existsb (fun o => bool_decide (o = sender)) (sp_operators (s_params st))) EUnauthorized.
(** execute.rs:359-363, 495-499, 507-511, 786-790 *)
Definition finders_ok (st : state) (bps : option N) : result unit :=
  match bps with
  | Some b => ensure (dec_percent b <=? sp_max_finders_fee (s_params st)) EInvalidInput
  | None => Ok tt
  end.
(** execute.rs:1174-1184 *)
Definition parse_royalties (r : option (string * N)) : option (string * N) :=
  match r with
  | Some (to, share) => if share =? 0 then None else Some (to, share)
  | None => None
  end.

Section Model.
Context (p : params) (x : ext).

(** sg1::fair_burn (external): messages that destroy or pool the amount. *)
Definition fair_burn (n : N) : list smsg :=
  if (n =? 0) && x_zero_burn x then [] else [SPlain (MFairBurn (Coin NATIVE_DENOM n))].

(** execute.rs:1186-1263 *)
Definition payout (v : view) (st : state) (coll : addr) (payment : N) (recipient : addr) (finder : option addr)
    (bps : option N) (resp : list smsg) : result (list smsg) :=
  fee ← mul_floor payment (sp_trading_fee (s_params st));
  let network_fee := fee / 100 in
  let resp := resp ++ fair_burn network_fee in
  match q_info v coll with
  | None => Err EStd
  | Some ci =>
      f ← match finder with
          | Some finder =>
              n ← match bps with Some b => n ← mul_floor payment (dec_percent b); Ok (n / 100) | None => Ok 0 end;
              Ok (if 0 <? n then [send finder n] else [], n)
          | None => Ok ([], 0)
          end;
      let '(fmsgs, finders_fee) := f in
      match parse_royalties (ci_royalty ci) with
      | Some (to, share) =>
          amount ← mul_floor payment share;
          s1 ← add128 network_fee finders_fee;
          s2 ← add128 s1 amount;
          ensure (s2 <=? payment) EStd ;;
          rest ← sub128 DEC_ONE share;
          n1 ← mul_floor payment rest;
          n2 ← sub128 n1 network_fee;
          n3 ← sub128 n2 finders_fee;
          Ok (resp ++ fmsgs ++ [send to amount; send recipient n3])
      | None =>
          s1 ← add128 network_fee finders_fee;
          ensure (s1 <=? payment) EStd ;;
          n2 ← sub128 payment network_fee;
          n3 ← sub128 n2 finders_fee;
          Ok (resp ++ fmsgs ++ [send recipient n3])
      end
  end.

(** execute.rs:1124-1171 *)
Definition finalize_sale (v : view) (st : state) (a : ask) (price : N) (buyer : addr) (finder asset_recipient : option addr)
    (resp : list smsg) : result (list smsg) :=
  resp ← payout v st (k_coll a) price (address_or (k_recipient a) (k_seller a)) finder (k_finders a) resp;
  Ok (resp ++ [SPlain (MNft (k_coll a) (tok_str (k_tok a)) (address_or asset_recipient buyer))]
           ++ prepare_sale_hook st a buyer).

(** * Handlers of execute.rs *)

(** execute.rs:313-410 *)
Definition execute_set_ask (v : view) (e : env) (sender : addr) (funds : list coin) (st : state)
    (ty : sale_type) (coll : addr) (tok : N) (price : coin) (recipient reserve : option addr) (bps : option N) (expires : N)
    : result (state * list smsg) :=
  price_validate st price ;;
  ensure (c_amount price <=? MAX_FIXED_PRICE_ASK_AMOUNT) EInvalidInput ;;
  only_owner v sender coll tok ;;
  only_tradable v e coll ;;
  ensure (q_approval v coll (tok_str tok) (p_self p)) EStd ;;
  expiry_is_valid (sp_ask_expiry (s_params st)) e expires ;;
  listing_fee ← may_pay funds NATIVE_DENOM;
  ensure (listing_fee =? sp_listing_fee (s_params st)) EPayment ;;
  finders_ok st bps ;;
  match reserve with
  | Some r => ensure (bool_decide (r <> sender)) EInvalidInput ;; ensure (bool_decide (ty = FixedPrice)) EInvalidInput
  | None => Ok tt
  end ;;
  let a := Ask ty coll tok sender (c_amount price) recipient reserve bps expires true in
  Ok (store_ask st a, (if 0 <? listing_fee then fair_burn listing_fee else []) ++ prepare_ask_hook st a HCreate).

(** execute.rs:413-433 *)
Definition execute_remove_ask (v : view) (sender : addr) (funds : list coin) (st : state) (coll : addr) (tok : N)
    : result (state * list smsg) :=
  nonpayable funds ;;
  only_owner v sender coll tok ;;
  a ← load (s_asks st !! (coll, tok));
  Ok (remove_ask st coll tok, prepare_ask_hook st a HDelete).

(** execute.rs:436-469: there is no check against the maximum price *)
Definition execute_update_ask_price (v : view) (e : env) (sender : addr) (funds : list coin) (st : state)
    (coll : addr) (tok : N) (price : coin) : result (state * list smsg) :=
  nonpayable funds ;;
  only_owner v sender coll tok ;;
  price_validate st price ;;
  a ← load (s_asks st !! (coll, tok));
  ensure (k_active a) EOther ;;
  ensure (negb (is_expired (k_expires a) e)) EExpired ;;
  let a' := Ask (k_type a) (k_coll a) (k_tok a) (k_seller a) (c_amount price) (k_recipient a) (k_reserve a)
                (k_finders a) (k_expires a) (k_active a) in
  Ok (set_asks st (<[(coll, tok) := a']> (s_asks st)), prepare_ask_hook st a' HUpdate).

(** execute.rs:472-632 *)
Definition execute_set_bid (v : view) (e : env) (sender : addr) (funds : list coin) (st : state)
    (coll : addr) (tok : N) (bps : option N) (expires : N) (finder : option addr) (asset_recipient : option addr)
    (buy_now : bool) : result (state * list smsg) :=
  ensure (bool_decide (finder <> Some sender)) EInvalidInput ;;
  finders_ok st bps ;;
  bid_price ← must_pay funds NATIVE_DENOM;
  ensure (sp_min_price (s_params st) <=? bid_price) EInvalidInput ;;
  expiry_is_valid (sp_bid_expiry (s_params st)) e expires ;;
  finders_ok st bps ;;
  let '(st, res) :=
    match s_bids st !! (coll, tok, sender) with
    | Some old => (remove_bid st coll tok sender, [send sender (b_price old)])
    | None => (st, [])
    end in
  let existing_ask := s_asks st !! (coll, tok) in
  match existing_ask with
  | Some a =>
      ensure (negb (is_expired (k_expires a) e)) EExpired ;;
      ensure (k_active a) EOther ;;
      match k_reserve a with Some r => ensure (bool_decide (r = sender)) EUnauthorized | None => Ok tt end
  | None => ensure (negb buy_now) EOther
  end ;;
  let b := Bid coll tok sender bid_price bps expires in
  let saved := Ok (store_bid st b, res ++ prepare_bid_hook st b HCreate) in
  match existing_ask with
  | None => saved
  | Some a =>
      match k_type a with
      | FixedPrice =>
          match bid_price ?= k_price a with
          | Gt => Err EInvalidInput
          | Lt => saved
          | Eq =>
              let st' := remove_ask st coll tok in
              match q_owner v (k_coll a) (tok_str (k_tok a)) with
              | None => Err EInvalidInput
              | Some owner =>
                  ensure (bool_decide (k_seller a = owner)) EInvalidInput ;;
                  res ← finalize_sale v st' a bid_price sender finder asset_recipient res;
                  Ok (st', res)
              end
          end
      | Auction =>
          match bid_price ?= k_price a with
          | Gt | Eq => saved
          | Lt => Err EInvalidInput
          end
      end
  end.

(** execute.rs:635-667 *)
Definition execute_remove_bid (sender : addr) (funds : list coin) (st : state) (coll : addr) (tok : N)
    : result (state * list smsg) :=
  nonpayable funds ;;
  b ← load (s_bids st !! (coll, tok, sender));
  Ok (remove_bid st coll tok sender, [send (b_bidder b) (b_price b)] ++ prepare_bid_hook st b HDelete).

(** execute.rs:670-731 *)
Definition execute_accept_bid (v : view) (e : env) (sender : addr) (funds : list coin) (st : state)
    (coll : addr) (tok : N) (bidder : addr) (finder : option addr) : result (state * list smsg) :=
  nonpayable funds ;;
  only_owner v sender coll tok ;;
  only_tradable v e coll ;;
  b ← load (s_bids st !! (coll, tok, bidder));
  ensure (negb (is_expired (b_expires b) e)) EExpired ;;
  let st' := match s_asks st !! (coll, tok) with Some _ => remove_ask st coll tok | None => st end in
  let a := Ask Auction coll tok sender (b_price b) (Some sender) None (b_finders b) (b_expires b) true in
  let st' := remove_bid st' coll tok bidder in
  res ← finalize_sale v st' a (b_price b) bidder finder None [];
  Ok (st', res).

(** execute.rs:733-766 *)
Definition execute_reject_bid (v : view) (sender : addr) (funds : list coin) (st : state) (coll : addr) (tok : N)
    (bidder : addr) : result (state * list smsg) :=
  nonpayable funds ;;
  only_owner v sender coll tok ;;
  b ← load (s_bids st !! (coll, tok, bidder));
  Ok (remove_bid st coll tok bidder, [send bidder (b_price b)] ++ prepare_bid_hook st b HDelete).

(** execute.rs:769-823 *)
Definition execute_set_collection_bid (e : env) (sender : addr) (funds : list coin) (st : state) (coll : addr)
    (bps : option N) (expires : N) : result (state * list smsg) :=
  price ← must_pay funds NATIVE_DENOM;
  ensure (sp_min_price (s_params st) <=? price) EInvalidInput ;;
  expiry_is_valid (sp_bid_expiry (s_params st)) e expires ;;
  finders_ok st bps ;;
  let '(st, res) :=
    match s_cbids st !! (coll, sender) with
    | Some old => (remove_cbid st coll sender, [send (cb_bidder old) (cb_price old)])
    | None => (st, [])
    end in
  let b := CBid coll sender price bps expires in
  Ok (store_cbid st b, res ++ prepare_cbid_hook st b HCreate).

(** execute.rs:826-857 *)
Definition execute_remove_collection_bid (sender : addr) (funds : list coin) (st : state) (coll : addr)
    : result (state * list smsg) :=
  nonpayable funds ;;
  b ← load (s_cbids st !! (coll, sender));
  Ok (remove_cbid st coll sender, [send (cb_bidder b) (cb_price b)] ++ prepare_cbid_hook st b HDelete).

(** execute.rs:860-920 *)
Definition execute_accept_collection_bid (v : view) (e : env) (sender : addr) (funds : list coin) (st : state)
    (coll : addr) (tok : N) (bidder : addr) (finder : option addr) : result (state * list smsg) :=
  nonpayable funds ;;
  only_owner v sender coll tok ;;
  only_tradable v e coll ;;
  b ← load (s_cbids st !! (coll, bidder));
  ensure (negb (is_expired (cb_expires b) e)) EExpired ;;
  let st' := remove_cbid st coll bidder in
  let st' := match s_asks st' !! (coll, tok) with Some _ => remove_ask st' coll tok | None => st' end in
  let a := Ask Auction coll tok sender (cb_price b) (Some sender) None (cb_finders b) (cb_expires b) true in
  res ← finalize_sale v st' a (cb_price b) bidder finder None [];
  Ok (st', res).

(** execute.rs:924-962 *)
Definition execute_sync_ask (v : view) (sender : addr) (funds : list coin) (st : state) (coll : addr) (tok : N)
    : result (state * list smsg) :=
  nonpayable funds ;;
  only_operator st sender ;;
  a ← load (s_asks st !! (coll, tok));
  let ok := q_approval v coll (tok_str tok) (p_self p) in
  ensure (negb (Bool.eqb ok (k_active a))) EOther ;;
  let a' := Ask (k_type a) (k_coll a) (k_tok a) (k_seller a) (k_price a) (k_recipient a) (k_reserve a)
                (k_finders a) (k_expires a) ok in
  Ok (set_asks st (<[(coll, tok) := a']> (s_asks st)), prepare_ask_hook st a' HUpdate).

(** execute.rs:966-1019 *)
Definition execute_remove_stale_ask (v : view) (e : env) (sender : addr) (funds : list coin) (st : state)
    (coll : addr) (tok : N) : result (state * list smsg) :=
  nonpayable funds ;;
  only_operator st sender ;;
  a ← load (s_asks st !! (coll, tok));
  let has_owner := bool_decide (q_owner v coll (tok_str tok) <> None) in
  let expired := is_expired (k_expires a) e in
  let has_approval := q_approval v coll (tok_str tok) (p_self p) in
  ensure (negb (has_owner && has_approval && negb expired)) EOther ;;
  Ok (remove_ask st coll tok, prepare_ask_hook st a HDelete).

(** [Expiration::AtTime(t) + Duration] and [is_expired] of cw-utils, as used in execute.rs:1038-1041, 1089-1093 *)
Definition stale_check (st : state) (e : env) (expires_at : N) : result unit :=
  match sp_stale (s_params st) with
  | DHeight _ => Err EStd
  | DTime secs => t ← t_plus_seconds expires_at secs; ensure (t <=? e_time e) EOther
  end.
(** execute.rs:1046, 1098 *)
Definition removal_reward (st : state) (price : N) : result N :=
  n ← mul_floor price (sp_reward (s_params st)); Ok (n / 100).

(** execute.rs:1023-1071 *)
Definition execute_remove_stale_bid (e : env) (sender : addr) (funds : list coin) (st : state) (coll : addr) (tok : N)
    (bidder : addr) : result (state * list smsg) :=
  nonpayable funds ;;
  only_operator st sender ;;
  b ← load (s_bids st !! (coll, tok, bidder));
  stale_check st e (b_expires b) ;;
  reward ← removal_reward st (b_price b);
  rest ← sub128 (b_price b) reward;
  Ok (remove_bid st coll tok bidder,
      [send (b_bidder b) rest; send sender reward] ++ prepare_bid_hook st b HDelete).

(** execute.rs:1075-1121 *)
Definition execute_remove_stale_collection_bid (e : env) (sender : addr) (funds : list coin) (st : state) (coll : addr)
    (bidder : addr) : result (state * list smsg) :=
  nonpayable funds ;;
  only_operator st sender ;;
  b ← load (s_cbids st !! (coll, bidder));
  stale_check st e (cb_expires b) ;;
  reward ← removal_reward st (cb_price b);
  rest ← sub128 (cb_price b) reward;
  Ok (remove_cbid st coll bidder,
      [send (cb_bidder b) rest; send sender reward] ++ prepare_cbid_hook st b HDelete).

(** msg.rs:39-135 (the [sale_type] of SetBid only appears in an event and is left out here, see V1Events.v) *)
Inductive msg : Type :=
  | SetAsk (ty : sale_type) (coll : string) (tok : N) (price : coin) (recipient reserve : option string) (bps : option N) (expires : N)
  | RemoveAsk (coll : string) (tok : N)
  | UpdateAskPrice (coll : string) (tok : N) (price : coin)
  | SetBid (coll : string) (tok : N) (expires : N) (finder : option string) (bps : option N)
  | BuyNow (coll : string) (tok : N) (expires : N) (finder : option string) (bps : option N)
  | BuyFor (coll : string) (tok : N) (expires : N) (finder : option string) (bps : option N) (asset_recipient : string)
  | RemoveBid (coll : string) (tok : N)
  | AcceptBid (coll : string) (tok : N) (bidder : string) (finder : option string)
  | RejectBid (coll : string) (tok : N) (bidder : string)
  | SetCollectionBid (coll : string) (expires : N) (bps : option N)
  | RemoveCollectionBid (coll : string)
  | AcceptCollectionBid (coll : string) (tok : N) (bidder : string) (finder : option string)
  | SyncAsk (coll : string) (tok : N)
  | RemoveStaleAsk (coll : string) (tok : N)
  | RemoveStaleBid (coll : string) (tok : N) (bidder : string)
  | RemoveStaleCollectionBid (coll : string) (bidder : string).

(** execute.rs:107-310 *)
Definition execute_sub (v : view) (e : env) (sender : addr) (funds : list coin) (st : state) (m : msg)
    : result (state * list smsg) :=
  match m with
  | SetAsk ty coll tok price recipient reserve bps expires =>
      coll ← addr_validate p coll; recipient ← maybe_addr p recipient; reserve ← maybe_addr p reserve;
      execute_set_ask v e sender funds st ty coll tok price recipient reserve bps expires
  | RemoveAsk coll tok => coll ← addr_validate p coll; execute_remove_ask v sender funds st coll tok
  | UpdateAskPrice coll tok price =>
      coll ← addr_validate p coll; execute_update_ask_price v e sender funds st coll tok price
  | SetBid coll tok expires finder bps =>
      coll ← addr_validate p coll; finder ← maybe_addr p finder;
      execute_set_bid v e sender funds st coll tok bps expires finder None false
  | BuyNow coll tok expires finder bps =>
      coll ← addr_validate p coll; finder ← maybe_addr p finder;
      execute_set_bid v e sender funds st coll tok bps expires finder None true
  | BuyFor coll tok expires finder bps asset_recipient =>
      coll ← addr_validate p coll; finder ← maybe_addr p finder; to ← addr_validate p asset_recipient;
      execute_set_bid v e sender funds st coll tok bps expires finder (Some to) true
  | RemoveBid coll tok => coll ← addr_validate p coll; execute_remove_bid sender funds st coll tok
  | AcceptBid coll tok bidder finder =>
      coll ← addr_validate p coll; bidder ← addr_validate p bidder; finder ← maybe_addr p finder;
      execute_accept_bid v e sender funds st coll tok bidder finder
  | RejectBid coll tok bidder =>
      coll ← addr_validate p coll; bidder ← addr_validate p bidder;
      execute_reject_bid v sender funds st coll tok bidder
  | SetCollectionBid coll expires bps =>
      coll ← addr_validate p coll; execute_set_collection_bid e sender funds st coll bps expires
  | RemoveCollectionBid coll => coll ← addr_validate p coll; execute_remove_collection_bid sender funds st coll
  | AcceptCollectionBid coll tok bidder finder =>
      coll ← addr_validate p coll; bidder ← addr_validate p bidder; finder ← maybe_addr p finder;
      execute_accept_collection_bid v e sender funds st coll tok bidder finder
  | SyncAsk coll tok => coll ← addr_validate p coll; execute_sync_ask v sender funds st coll tok
  | RemoveStaleAsk coll tok => coll ← addr_validate p coll; execute_remove_stale_ask v e sender funds st coll tok
  | RemoveStaleBid coll tok bidder =>
      coll ← addr_validate p coll; bidder ← addr_validate p bidder;
      execute_remove_stale_bid e sender funds st coll tok bidder
  | RemoveStaleCollectionBid coll bidder =>
      coll ← addr_validate p coll; bidder ← addr_validate p bidder;
      execute_remove_stale_collection_bid e sender funds st coll bidder
  end.
(** The same call as the chain sees it. *)
Definition execute (v : view) (e : env) (sender : addr) (funds : list coin) (st : state) (m : msg)
    : result (state * list cmsg) :=
  r ← execute_sub v e sender funds st m; Ok (fst r, map erase (snd r)).

(** * instantiate *)

(** helpers.rs:27-35 *)
Fixpoint validate_all (l : list string) : result (list addr) :=
  match l with [] => Ok [] | s :: l => a ← addr_validate p s; r ← validate_all l; Ok (a :: r) end.
Fixpoint dedup (l : list addr) : list addr :=
  match l with
  | [] => []
  | a :: l => match dedup l with
              | b :: l' => if bool_decide (a = b) then b :: l' else a :: b :: l'
              | [] => [a]
              end
  end.
Definition map_validate (l : list string) : result (list addr) :=
  r ← validate_all l; Ok (dedup (sort_by str_leb (fun s => s) r)).

(** msg.rs:11-36 *)
Record instantiate_msg : Type := InstantiateMsg {
  im_trading_fee_bps : N;
  im_ask_expiry : expiry_range;
  im_bid_expiry : expiry_range;
  im_operators : list string;
  im_sale_hook : option string;
  im_max_finders_fee_bps : N;
  im_min_price : N;
  im_stale : duration;
  im_reward_bps : N;
  im_listing_fee : N;
}.
(** execute.rs:40-85 *)
Definition instantiate (m : instantiate_msg) : result state :=
  ensure (im_max_finders_fee_bps m <=? MAX_FEE_BPS) EInvalidInput ;;
  ensure (im_trading_fee_bps m <=? MAX_FEE_BPS) EInvalidInput ;;
  ensure (im_reward_bps m <=? MAX_FEE_BPS) EInvalidInput ;;
  expiry_validate (im_ask_expiry m) ;;
  expiry_validate (im_bid_expiry m) ;;
  match im_stale m with DHeight _ => Err EInvalidInput | DTime _ => Ok tt end ;;
  operators ← map_validate (im_operators m);
  hooks ← match im_sale_hook m with None => Ok [] | Some h => a ← addr_validate p h; Ok [a] end;
  Ok (State (SudoParams (dec_percent (im_trading_fee_bps m)) (im_ask_expiry m) (im_bid_expiry m) operators
                        (dec_percent (im_max_finders_fee_bps m)) (im_min_price m) (im_stale m)
                        (dec_percent (im_reward_bps m)) (im_listing_fee m))
            ∅ ∅ ∅ [] [] hooks []).

(** * sudo.rs *)

(** msg.rs:143-153 *)
Record params_update : Type := ParamsUpdate {
  u_trading_fee_bps : option N;
  u_ask_expiry : option expiry_range;
  u_bid_expiry : option expiry_range;
  u_operators : option (list string);
  u_max_finders_fee_bps : option N;
  u_min_price : option N;
  u_stale : option N;
  u_reward_bps : option N;
  u_listing_fee : option N;
}.
Definition bps_ok (o : option N) : result unit :=
  match o with Some n => ensure (n <=? MAX_FEE_BPS) EInvalidInput | None => Ok tt end.
Definition expiry_ok (o : option expiry_range) : result unit :=
  match o with Some r => expiry_validate r | None => Ok tt end.
(** sudo.rs:71-136: the new list of operators is ignored *)
Definition sudo_update_params (st : state) (u : params_update) : result state :=
  bps_ok (u_max_finders_fee_bps u) ;;
  bps_ok (u_trading_fee_bps u) ;;
  bps_ok (u_reward_bps u) ;;
  expiry_ok (u_ask_expiry u) ;;
  expiry_ok (u_bid_expiry u) ;;
  let c := s_params st in
  Ok (set_params st (SudoParams
    (match u_trading_fee_bps u with Some n => dec_percent n | None => sp_trading_fee c end)
    (default (sp_ask_expiry c) (u_ask_expiry u)) (default (sp_bid_expiry c) (u_bid_expiry u))
    (sp_operators c)
    (match u_max_finders_fee_bps u with Some n => dec_percent n | None => sp_max_finders_fee c end)
    (default (sp_min_price c) (u_min_price u))
    (match u_stale u with Some n => DTime n | None => sp_stale c end)
    (match u_reward_bps u with Some n => dec_percent n | None => sp_reward c end)
    (default (sp_listing_fee c) (u_listing_fee u)))).

Definition set_operators (st : state) (ops : list addr) : state :=
  let c := s_params st in
  set_params st (SudoParams (sp_trading_fee c) (sp_ask_expiry c) (sp_bid_expiry c) ops (sp_max_finders_fee c)
                            (sp_min_price c) (sp_stale c) (sp_reward c) (sp_listing_fee c)).
(** Registration in a vector of addresses: sudo.rs:138-164 for operators, sg_controllers::Hooks for hooks (an address is
    pushed unless present; the first occurrence is removed, an absent one is an error). *)
Definition register (l : list addr) (a : addr) : result (list addr) :=
  if existsb (fun o => bool_decide (o = a)) l then Err EOther else Ok (l ++ [a]).
Fixpoint unregister (l : list addr) (a : addr) : result (list addr) :=
  match l with
  | [] => Err EOther
  | o :: l => if bool_decide (o = a) then Ok l else l' ← unregister l a; Ok (o :: l')
  end.

(** msg.rs:140-173, and [migrate] (execute.rs:1463-1487, which only rewrites the version record). *)
Inductive sudo_msg : Type :=
  | UpdateParams (u : params_update)
  | AddOperator (a : string)
  | RemoveOperator (a : string)
  | AddSaleHook (h : string)
  | AddAskHook (h : string)
  | AddBidHook (h : string)
  | RemoveSaleHook (h : string)
  | RemoveAskHook (h : string)
  | RemoveBidHook (h : string)
  | Migrate.
(** sudo.rs:28-68, 138-218 *)
Definition sudo_state (st : state) (m : sudo_msg) : result state :=
  match m with
  | UpdateParams u => sudo_update_params st u
  | AddOperator a => a ← addr_validate p a; l ← register (sp_operators (s_params st)) a; Ok (set_operators st l)
  | RemoveOperator a => a ← addr_validate p a; l ← unregister (sp_operators (s_params st)) a; Ok (set_operators st l)
  | AddSaleHook h => h ← addr_validate p h; l ← register (s_sale_hooks st) h;
                     Ok (set_hooks st (s_ask_hooks st) (s_bid_hooks st) l)
  | AddAskHook h => h ← addr_validate p h; l ← register (s_ask_hooks st) h;
                    Ok (set_hooks st l (s_bid_hooks st) (s_sale_hooks st))
  | AddBidHook h => h ← addr_validate p h; l ← register (s_bid_hooks st) h;
                    Ok (set_hooks st (s_ask_hooks st) l (s_sale_hooks st))
  | RemoveSaleHook h => h ← addr_validate p h; l ← unregister (s_sale_hooks st) h;
                        Ok (set_hooks st (s_ask_hooks st) (s_bid_hooks st) l)
  | RemoveAskHook h => h ← addr_validate p h; l ← unregister (s_ask_hooks st) h;
                       Ok (set_hooks st l (s_bid_hooks st) (s_sale_hooks st))
  | RemoveBidHook h => h ← addr_validate p h; l ← unregister (s_bid_hooks st) h;
                       Ok (set_hooks st (s_ask_hooks st) l (s_sale_hooks st))
  | Migrate => Ok st
  end.
Definition sudo (v : view) (e : env) (st : state) (m : sudo_msg) : result (state * list cmsg) :=
  st' ← sudo_state st m; Ok (st', []).

(** * query.rs *)

(** query.rs:18-19; [limit.unwrap_or(10).min(100)] *)
Definition limit_nat (limit : option N) : nat := N.to_nat (N.min (default DEFAULT_QUERY_LIMIT limit) MAX_QUERY_LIMIT).

(** Orders of keys in storage.  In a composite key every part but the last is prefixed with its two-byte length, so
    shorter strings sort first; integers are big-endian of fixed width. *)
Definition lenstr_leb (s t : string) : bool :=
  (String.length s <? String.length t)%nat || ((String.length s =? String.length t)%nat && str_leb s t).
Definition lex_leb {A B} `{EqDecision A} (lea : A -> A -> bool) (leb : B -> B -> bool) (u w : A * B) : bool :=
  if bool_decide (fst u = fst w) then leb (snd u) (snd w) else lea (fst u) (fst w).
Definition ask_leb : string * N -> string * N -> bool := lex_leb lenstr_leb N.leb.
Definition bid_leb : string * N * string -> string * N * string -> bool := lex_leb ask_leb str_leb.
Definition cbid_leb : string * string -> string * string -> bool := lex_leb lenstr_leb str_leb.
Definition price_leb {K} (leb : K -> K -> bool) : N * K -> N * K -> bool := lex_leb N.leb leb.

(** query.rs:252-258, and the same filter in four other queries *)
Definition shown (include_inactive : option bool) (a : ask) : bool :=
  match include_inactive with Some true => true | _ => k_active a end.
(** The entries of a map whose index prefix matches. *)
Definition entries {K A} `{Countable K} (f : A -> bool) (m : gmap K A) : list (K * A) :=
  List.filter (fun y => f (snd y)) (map_to_list m).
Definition price_key {K A} (price : A -> N) (y : K * A) : N * K := (price (snd y), fst y).
Definition asc {K} (after : option K) : qopts K := QOpts (Some false) None (BExcl <$> after) None.
Definition desc {K} (before : option K) : qopts K := QOpts (Some true) None None (BExcl <$> before).
Definition coll_is (coll : string) (c : addr) : bool := bool_decide (c = coll).

(** query.rs:210-230: one entry per ask, so a collection appears once for each of its asks *)
Definition query_collections (st : state) (start_after : option string) (limit : option N) : result (list addr) :=
  after ← maybe_addr p start_after;
  let keep (k : string * N) := match after with None => true | Some c => negb (lenstr_leb (fst k) c) end in
  Ok (map (fun y => fst (fst y))
        (take (limit_nat limit)
           (List.filter (fun y => keep (fst y)) (index_scan ask_leb fst (map_to_list (s_asks st)) (asc None))))).

(** query.rs:232-266: the lower bound is (collection, start_after or 0), exclusive, even without [start_after] *)
Definition query_asks (st : state) (coll : string) (inactive : option bool) (start_after : option N) (limit : option N)
    : result (list ask) :=
  coll ← addr_validate p coll;
  Ok (map snd (take (limit_nat limit) (List.filter (fun y => shown inactive (snd y))
       (index_scan ask_leb fst (entries (fun a => coll_is coll (k_coll a)) (s_asks st))
          (asc (Some (coll, default 0 start_after))))))).
(** query.rs:268-302 *)
Definition reverse_query_asks (st : state) (coll : string) (inactive : option bool) (start_before : option N)
    (limit : option N) : result (list ask) :=
  coll ← addr_validate p coll;
  Ok (map snd (take (limit_nat limit) (List.filter (fun y => shown inactive (snd y))
       (index_scan ask_leb fst (entries (fun a => coll_is coll (k_coll a)) (s_asks st))
          (desc (Some (coll, default 0 start_before))))))).
(** query.rs:304-334; an offset is (price, token id) *)
Definition query_asks_sorted_by_price (st : state) (coll : string) (inactive : option bool) (start_after : option (N * N))
    (limit : option N) : result (list ask) :=
  coll ← addr_validate p coll;
  Ok (map snd (take (limit_nat limit) (List.filter (fun y => shown inactive (snd y))
       (index_scan (price_leb ask_leb) (price_key k_price) (entries (fun a => coll_is coll (k_coll a)) (s_asks st))
          (asc ((fun o => (fst o, (coll, snd o))) <$> start_after)))))).
(** query.rs:336-366 *)
Definition reverse_query_asks_sorted_by_price (st : state) (coll : string) (inactive : option bool)
    (start_before : option (N * N)) (limit : option N) : result (list ask) :=
  coll ← addr_validate p coll;
  Ok (map snd (take (limit_nat limit) (List.filter (fun y => shown inactive (snd y))
       (index_scan (price_leb ask_leb) (price_key k_price) (entries (fun a => coll_is coll (k_coll a)) (s_asks st))
          (desc ((fun o => (fst o, (coll, snd o))) <$> start_before)))))).
(** query.rs:368-377 (the count is cast to u32) *)
Definition query_ask_count (st : state) (coll : string) : result N :=
  coll ← addr_validate p coll;
  Ok (N.of_nat (length (entries (fun a => coll_is coll (k_coll a)) (s_asks st))) mod 2 ^ 32).
(** query.rs:379-412 *)
Definition query_asks_by_seller (st : state) (seller : string) (inactive : option bool) (start_after : option (string * N))
    (limit : option N) : result (list ask) :=
  seller ← addr_validate p seller;
  match start_after with Some (c, _) => c ← addr_validate p c; Ok tt | None => Ok tt end ;;
  Ok (map snd (take (limit_nat limit) (List.filter (fun y => shown inactive (snd y))
       (index_scan ask_leb fst (entries (fun a => bool_decide (k_seller a = seller)) (s_asks st)) (asc start_after))))).
(** query.rs:414-429, 573-581 *)
Definition query_ask (st : state) (coll : string) (tok : N) : result (option ask) :=
  coll ← addr_validate p coll; Ok (s_asks st !! (coll, tok)).
Definition query_bid (st : state) (coll : string) (tok : N) (bidder : string) : result (option bid) :=
  coll ← addr_validate p coll; bidder ← addr_validate p bidder; Ok (s_bids st !! (coll, tok, bidder)).
Definition query_collection_bid (st : state) (coll bidder : string) : result (option cbid) :=
  coll ← addr_validate p coll; bidder ← addr_validate p bidder; Ok (s_cbids st !! (coll, bidder)).

(** query.rs:431-460 *)
Definition query_bids_by_bidder (st : state) (bidder : string) (start_after : option (string * N)) (limit : option N)
    : result (list bid) :=
  bidder ← addr_validate p bidder;
  match start_after with Some (c, _) => c ← addr_validate p c; Ok tt | None => Ok tt end ;;
  Ok (map snd (take (limit_nat limit)
       (index_scan bid_leb fst (entries (fun b => bool_decide (b_bidder b = bidder)) (s_bids st))
          (asc ((fun o => (o, bidder)) <$> start_after))))).

(** The bytes of the primary key of a bid, as stored below an index prefix. *)
Definition raw_bid_key (k : string * N * string) : string :=
  let '(coll, tok, bidder) := k in
  String.append (be_bytes 2 (N.of_nat (String.length coll)))
    (String.append coll (String.append (be_bytes 2 4) (String.append (be_bytes 4 tok) bidder))).
(** query.rs:462-482: the raw bound is the bidder alone, although the keys begin with the collection *)
Definition query_bids (st : state) (coll : string) (tok : N) (start_after : option string) (limit : option N)
    : result (list bid) :=
  coll ← addr_validate p coll;
  Ok (map snd (take (limit_nat limit)
       (index_scan str_leb (fun y => raw_bid_key (fst y))
          (entries (fun b => coll_is coll (b_coll b) && (b_tok b =? tok)) (s_bids st)) (asc start_after)))).

(** query.rs:484-536; an offset is (price, token id, bidder) *)
Definition query_bids_sorted_by_price (st : state) (coll : string) (start_after : option (N * N * string)) (limit : option N)
    : result (list bid) :=
  coll ← addr_validate p coll;
  Ok (map snd (take (limit_nat limit)
       (index_scan (price_leb bid_leb) (price_key b_price) (entries (fun b => coll_is coll (b_coll b)) (s_bids st))
          (asc ((fun o : N * N * string => (fst (fst o), ((coll, snd (fst o)), snd o))) <$> start_after))))).
Definition reverse_query_bids_sorted_by_price (st : state) (coll : string) (start_before : option (N * N * string))
    (limit : option N) : result (list bid) :=
  coll ← addr_validate p coll;
  Ok (map snd (take (limit_nat limit)
       (index_scan (price_leb bid_leb) (price_key b_price) (entries (fun b => coll_is coll (b_coll b)) (s_bids st))
          (desc ((fun o : N * N * string => (fst (fst o), ((coll, snd (fst o)), snd o))) <$> start_before))))).
(** query.rs:538-571: when the offset bid is gone, the listing starts again from the beginning *)
Definition query_bids_by_bidder_sorted_by_expiry (st : state) (bidder : string) (start_after : option (string * N))
    (limit : option N) : result (list bid) :=
  bidder ← addr_validate p bidder;
  start ← match start_after with
          | None => Ok None
          | Some (c, t) =>
              c ← addr_validate p c;
              Ok match s_bids st !! (c, t, bidder) with
                 | Some b => Some (t_seconds (b_expires b), (c, t, bidder))
                 | None => None
                 end
          end;
  Ok (map snd (take (limit_nat limit)
       (index_scan (price_leb bid_leb) (price_key (fun b => t_seconds (b_expires b)))
          (entries (fun b => bool_decide (b_bidder b = bidder)) (s_bids st)) (asc start)))).

(** query.rs:583-642; an offset is (price, bidder) *)
Definition query_collection_bids_sorted_by_price (st : state) (coll : string) (start_after : option (N * string))
    (limit : option N) : result (list cbid) :=
  coll ← addr_validate p coll;
  match start_after with Some (_, b) => b ← addr_validate p b; Ok tt | None => Ok tt end ;;
  Ok (map snd (take (limit_nat limit)
       (index_scan (price_leb cbid_leb) (price_key cb_price) (entries (fun b => coll_is coll (cb_coll b)) (s_cbids st))
          (asc ((fun o => (fst o, (coll, snd o))) <$> start_after))))).
Definition reverse_query_collection_bids_sorted_by_price (st : state) (coll : string) (start_before : option (N * string))
    (limit : option N) : result (list cbid) :=
  coll ← addr_validate p coll;
  match start_before with Some (_, b) => b ← addr_validate p b; Ok tt | None => Ok tt end ;;
  Ok (map snd (take (limit_nat limit)
       (index_scan (price_leb cbid_leb) (price_key cb_price) (entries (fun b => coll_is coll (cb_coll b)) (s_cbids st))
          (desc ((fun o => (fst o, (coll, snd o))) <$> start_before))))).
(** query.rs:644-668 *)
Definition query_collection_bids_by_bidder (st : state) (bidder : string) (start_after : option string) (limit : option N)
    : result (list cbid) :=
  bidder ← addr_validate p bidder;
  match start_after with Some c => c ← addr_validate p c; Ok tt | None => Ok tt end ;;
  Ok (map snd (take (limit_nat limit)
       (index_scan cbid_leb fst (entries (fun b => bool_decide (cb_bidder b = bidder)) (s_cbids st))
          (asc ((fun c => (c, bidder)) <$> start_after))))).
(** query.rs:670-706: the offset names a collection and a bidder *)
Definition query_collection_bids_by_bidder_sorted_by_expiry (st : state) (bidder : string)
    (start_after : option (string * string)) (limit : option N) : result (list cbid) :=
  bidder ← addr_validate p bidder;
  start ← match start_after with
          | None => Ok None
          | Some (c, b) =>
              b ← addr_validate p b; c ← addr_validate p c;
              Ok match s_cbids st !! (c, b) with
                 | Some x => Some (t_seconds (cb_expires x), (c, b))
                 | None => None
                 end
          end;
  Ok (map snd (take (limit_nat limit)
       (index_scan (price_leb cbid_leb) (price_key (fun b => t_seconds (cb_expires b)))
          (entries (fun b => bool_decide (cb_bidder b = bidder)) (s_cbids st)) (asc start)))).
End Model.
