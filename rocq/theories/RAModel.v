(** Model of contracts/reserve-auction.  File references are relative to /repo/contracts/reserve-auction/src.

    The contract depends on the published crate sg-marketplace-common =1.1.0, which is not in /repo.  What is not
    determined by the sources is a parameter [lib]: how failed queries are treated and how fee and royalty are
    rounded.  All theorems hold for every [lib]. *)
From Verif Require Import Base Common IndexRange.

(** * The external crate sg-marketplace-common 1.1.0 (not in /repo) *)
Record lib : Type := Lib {
  l_owner_open : bool;             (* does [only_owner] accept when the OwnerOf query fails? *)
  l_info_open : bool;              (* does [only_tradable] accept when the CollectionInfo query fails? *)
  l_royalty_open : bool;           (* does [load_collection_royalties] answer None when that query fails? *)
  l_fee : N -> N -> result N;      (* trading fee of an amount, given the fee share *)
  l_royalty : N -> N -> result N;  (* royalty of an amount, given the royalty share *)
}.

(** * state.rs *)

(** state.rs:10-22 *)
Record config : Type := Config {
  cf_fair_burn : addr;
  cf_trading_fee : N;            (* trading_fee_percent, raw Decimal *)
  cf_increment : N;              (* min_bid_increment_percent, raw Decimal *)
  cf_min_duration : N;
  cf_max_duration : N;
  cf_extend : N;                 (* extend_duration *)
  cf_create_fee : coin;
  cf_max_settle : N;             (* max_auctions_to_settle_per_block *)
  cf_halt_threshold : N;
  cf_halt_buffer : N;
  cf_halt_postpone : N;
}.

(** state.rs:25-54; saved only when valid *)
Definition config_validate (c : config) : result unit :=
  ensure (negb (cf_increment c =? 0)) EInvalidInput ;;
  ensure (cf_increment c <? DEC_ONE) EInvalidInput ;;
  ensure (0 <? cf_min_duration c) EInvalidInput ;;
  ensure (0 <? cf_extend c) EInvalidInput.

(** state.rs:63-66 *)
Record high_bid : Type := HighBid { hb_coin : coin; hb_bidder : addr }.

(** state.rs:69-79 *)
Record auction : Type := Auction {
  a_coll : addr;
  a_tok : token;
  a_seller : addr;
  a_reserve : coin;
  a_duration : N;                (* seconds *)
  a_end : option N;              (* nanoseconds *)
  a_recipient : option addr;     (* seller_funds_recipient *)
  a_high : option high_bid;
  a_first : option N;            (* first_bid_time, nanoseconds *)
}.

(** state.rs:102 *)
Definition akey : Type := string * string.
Definition a_key (a : auction) : akey := (a_coll a, a_tok a).

(** state.rs:82-84 *)
Definition a_denom (a : auction) : denom := c_denom (a_reserve a).
(** state.rs:86-88 *)
Definition funds_recipient (a : auction) : addr := address_or (a_recipient a) (a_seller a).
(** state.rs:90-99 *)
Definition min_bid_coin (a : auction) (increment : N) : result coin :=
  amount ← match a_high a with
           | Some hb => mul_ceil (c_amount (hb_coin hb)) (DEC_ONE + increment)
           | None => Ok (c_amount (a_reserve a))
           end;
  Ok (Coin (a_denom a) amount).

(** state.rs:123-126, 129-132 *)
Record halt_window : Type := HaltWindow { hw_start : N; hw_end : N }.   (* seconds *)
Record halt_manager : Type := HaltManager { hm_prev : N; hm_windows : list halt_window }.

(** state.rs:137-144 *)
Definition within_halt_window (h : halt_manager) (t : N) : bool :=
  existsb (fun w => (hw_start w <? t) && (t <? hw_end w)) (hm_windows h).
(** state.rs:146-160.  Returns the new manager when a window was removed. *)
Definition find_stale_halt_info (h : halt_manager) (earliest : option N) : option halt_manager :=
  match hm_windows h with
  | [] => None
  | w :: ws =>
      match earliest with
      | None => Some (HaltManager (hm_prev h) ws)
      | Some t => if hw_end w <? t_seconds t then Some (HaltManager (hm_prev h) ws) else None
      end
  end.

(** The contract's storage: CONFIG, MIN_RESERVE_PRICES, HALT_MANAGER and the indexed map of auctions
    (state.rs:56-60, 110-120, 134).  The indexes are computed from the map when scanned. *)
Record state : Type := State {
  s_config : config;
  s_mins : gmap string N;
  s_halt : halt_manager;
  s_auctions : gmap akey auction;
}.
Definition set_auctions (st : state) (m : gmap akey auction) : state := State (s_config st) (s_mins st) (s_halt st) m.
Definition save_auction (st : state) (a : auction) : state := set_auctions st (<[a_key a := a]> (s_auctions st)).
Definition remove_auction (st : state) (a : auction) : state := set_auctions st (delete (a_key a) (s_auctions st)).
Definition set_halt (st : state) (h : halt_manager) : state := State (s_config st) (s_mins st) h (s_auctions st).
Definition load_auction (st : state) (k : akey) : result auction :=
  match s_auctions st !! k with Some a => Ok a | None => Err ENotFound end.

(** Order of auction keys in storage: a primary key is the collection, prefixed with its two-byte length,
    followed by the token id; so shorter collections sort first. *)
Definition akey_leb (x y : akey) : bool :=
  (String.length (fst x) <? String.length (fst y))%nat ||
  ((String.length (fst x) =? String.length (fst y))%nat &&
   (negb (str_leb (fst y) (fst x)) || (bool_decide (fst x = fst y) && str_leb (snd x) (snd y)))).
(** state.rs:113-117: the end_time index; the key is (end second, primary key). *)
Definition end_index (a : auction) : N := match a_end a with None => U64_MAX | Some t => t_seconds t end.
Definition ekey : Type := N * akey.
Definition ekey_leb (x y : ekey) : bool :=
  (fst x <? fst y) || ((fst x =? fst y) && akey_leb (snd x) (snd y)).
Definition entry_ekey (x : akey * auction) : ekey := (end_index (snd x), fst x).

Section Model.
Context (p : params) (lb : lib).

(** * Functions of sg-marketplace-common 1.1.0, as far as the contract relies on them (assumed) *)
Definition only_owner (v : view) (sender : addr) (coll : addr) (tok : token) : result unit :=
  match q_owner v coll tok with
  | Some o => ensure (bool_decide (o = sender)) EUnauthorized
  | None => if l_owner_open lb then Ok tt else Err EStd
  end.
Definition has_approval (v : view) (spender : addr) (coll : addr) (tok : token) : result unit :=
  ensure (q_approval v coll tok spender) EUnauthorized.
Definition only_tradable (v : view) (e : env) (coll : addr) : result unit :=
  match q_info v coll with
  | Some ci =>
      match ci_start ci with
      | Some start => if e_time e <? start then Err ENotTradable else Ok tt
      | None => Ok tt
      end
  | None => if l_info_open lb then Ok tt else Err EStd
  end.
Definition load_collection_royalties (v : view) (coll : addr) : result (option (addr * N)) :=
  match q_info v coll with
  | Some ci =>
      match ci_royalty ci with
      | None => Ok None
      | Some (s, share) => r ← addr_validate p s; Ok (Some (r, share))
      end
  | None => if l_royalty_open lb then Ok None else Err EStd
  end.
(** Fair burn of the trading fee, then the royalty, then the rest to the seller; parts of zero are not sent. *)
Definition send_part (to : addr) (d : denom) (n : N) : list cmsg := if n =? 0 then [] else [MSend to [Coin d n]].
Definition payout_nft_sale_fees (sale : coin) (seller : addr) (trading_fee : N) (roy : option (addr * N))
    (resp : list cmsg) : result (list cmsg) :=
  fee ← l_fee lb (c_amount sale) trading_fee;
  rest ← checked_sub128 (c_amount sale) fee;
  r ← match roy with
      | None => Ok ([], 0)
      | Some (to, share) =>
          n ← l_royalty lb (c_amount sale) share;
          Ok (send_part to (c_denom sale) n, n)
      end;
  let '(rmsgs, n) := r in
  seller_amount ← checked_sub128 rest n;
  Ok (resp ++ (if fee =? 0 then [] else [MFairBurn (Coin (c_denom sale) fee)])
           ++ rmsgs ++ send_part seller (c_denom sale) seller_amount).

(** * helpers.rs *)

(** helpers.rs:11-22 *)
Definition only_no_auction (st : state) (coll : addr) (tok : token) : result unit :=
  match s_auctions st !! (coll, tok) with Some _ => Err EInvalidInput | None => Ok tt end.

(** helpers.rs:24-46 *)
Definition validate_reserve_price (st : state) (price : coin) : result unit :=
  match s_mins st !! c_denom price with
  | None => Err EInvalidInput
  | Some m => ensure (m <=? c_amount price) EInvalidInput
  end.

(** helpers.rs:48-122 *)
Definition settle_auction (v : view) (st : state) (now : N) (a : auction) (cfg : config) (h : halt_manager)
    (resp : list cmsg) : result (state * list cmsg) :=
  match a_end a with
  | None => Err ENotEnded
  | Some end_time =>
      ensure (end_time <=? now) ENotEnded ;;
      if within_halt_window h (t_seconds end_time) then
        new_end ← t_plus_seconds now (cf_halt_postpone cfg);
        let a' := Auction (a_coll a) (a_tok a) (a_seller a) (a_reserve a) (a_duration a) (Some new_end)
                          (a_recipient a) (a_high a) (a_first a) in
        Ok (save_auction st a', resp)
      else
        let st' := remove_auction st a in
        match a_high a with
        | None => Err EPanic
        | Some hb =>
            roy ← load_collection_royalties v (a_coll a);
            resp ← payout_nft_sale_fees (hb_coin hb) (funds_recipient a) (cf_trading_fee cfg) roy resp;
            Ok (st', transfer_nft (a_coll a) (a_tok a) (hb_bidder hb) resp)
        end
  end.

(** * execute.rs *)

(** execute.rs:83-184 *)
Definition execute_create_auction (v : view) (e : env) (sender : addr) (funds : list coin) (st : state)
    (coll : addr) (tok : token) (duration : N) (reserve : coin) (recipient : option addr)
    : result (state * list cmsg) :=
  let cfg := s_config st in
  only_owner v sender coll tok ;;
  has_approval v (p_self p) coll tok ;;
  only_no_auction st coll tok ;;
  only_tradable v e coll ;;
  validate_reserve_price st reserve ;;
  ensure ((cf_min_duration cfg <=? duration) && (duration <=? cf_max_duration cfg)) EInvalidInput ;;
  resp ← (if c_amount (cf_create_fee cfg) =? 0 then nonpayable funds ;; Ok []
          else ensure (has_coins funds (cf_create_fee cfg)) EPayment ;;
               Ok [MFairBurn (cf_create_fee cfg)]);
  let a := Auction coll tok sender reserve duration None recipient None None in
  Ok (save_auction st a, transfer_nft coll tok (p_self p) resp).

(** execute.rs:186-222 *)
Definition execute_update_reserve_price (sender : addr) (funds : list coin) (st : state)
    (coll : addr) (tok : token) (reserve : coin) : result (state * list cmsg) :=
  nonpayable funds ;;
  a ← load_auction st (coll, tok);
  ensure (bool_decide (a_seller a = sender)) EUnauthorized ;;
  ensure (bool_decide (a_first a = None)) EOther ;;
  validate_reserve_price st reserve ;;
  let a' := Auction (a_coll a) (a_tok a) (a_seller a) reserve (a_duration a) (a_end a)
                    (a_recipient a) (a_high a) (a_first a) in
  Ok (save_auction st a', []).

(** execute.rs:224-257 *)
Definition execute_cancel_auction (sender : addr) (funds : list coin) (st : state) (coll : addr) (tok : token)
    : result (state * list cmsg) :=
  nonpayable funds ;;
  a ← load_auction st (coll, tok);
  ensure (bool_decide (a_seller a = sender)) EUnauthorized ;;
  ensure (bool_decide (a_first a = None)) EOther ;;
  Ok (remove_auction st a, transfer_nft coll tok (a_seller a) []).

(** execute.rs:259-357.  [u64] subtraction at execute.rs:326 cannot underflow after the check at 287-290. *)
Definition execute_place_bid (e : env) (sender : addr) (funds : list coin) (st : state) (coll : addr) (tok : token)
    : result (state * list cmsg) :=
  let cfg := s_config st in
  let now := e_time e in
  a ← load_auction st (coll, tok);
  bid_amount ← must_pay funds (a_denom a);
  ensure (bool_decide (a_seller a <> sender)) EUnauthorized ;;
  min_bid ← min_bid_coin a (cf_increment cfg);
  ensure (has_coins funds min_bid) EInsufficient ;;
  ensure (match a_end a with None => true | Some t => t_seconds now <? t_seconds t end) EEnded ;;
  let next := HighBid (Coin (a_denom a) bid_amount) sender in
  r ← match a_first a with
      | None =>
          end_time ← t_plus_seconds now (a_duration a);
          Ok (Some now, Some end_time, [])
      | Some first =>
          match a_high a with
          | None => Err EPanic
          | Some prev =>
              resp ← checked_transfer_coin (hb_coin prev) (hb_bidder prev) [];
              match a_end a with
              | None => Err EPanic
              | Some t =>
                  if t_seconds t - t_seconds now <? cf_extend cfg then
                    end_time ← t_plus_seconds now (cf_extend cfg);
                    Ok (Some first, Some end_time, resp)
                  else Ok (Some first, Some t, resp)
              end
          end
      end;
  let '(first, end_time, resp) := r in
  let a' := Auction (a_coll a) (a_tok a) (a_seller a) (a_reserve a) (a_duration a) end_time
                    (a_recipient a) (Some next) first in
  Ok (save_auction st a', resp).

(** execute.rs:359-374 *)
Definition execute_settle_auction (v : view) (e : env) (funds : list coin) (st : state) (coll : addr) (tok : token)
    : result (state * list cmsg) :=
  nonpayable funds ;;
  a ← load_auction st (coll, tok);
  settle_auction v st (e_time e) a (s_config st) (s_halt st) [].

(** msg.rs:43-68 *)
Inductive msg : Type :=
  | CreateAuction (coll tok : string) (reserve : coin) (duration : N) (recipient : option string)
  | UpdateReservePrice (coll tok : string) (reserve : coin)
  | CancelAuction (coll tok : string)
  | PlaceBid (coll tok : string)
  | SettleAuction (coll tok : string).

(** execute.rs:24-80 *)
Definition execute (v : view) (e : env) (sender : addr) (funds : list coin) (st : state) (m : msg)
    : result (state * list cmsg) :=
  match m with
  | CreateAuction coll tok reserve duration recipient =>
      coll ← addr_validate p coll;
      recipient ← maybe_addr p recipient;
      execute_create_auction v e sender funds st coll tok duration reserve recipient
  | UpdateReservePrice coll tok reserve =>
      coll ← addr_validate p coll; execute_update_reserve_price sender funds st coll tok reserve
  | CancelAuction coll tok =>
      coll ← addr_validate p coll; execute_cancel_auction sender funds st coll tok
  | PlaceBid coll tok =>
      coll ← addr_validate p coll; execute_place_bid e sender funds st coll tok
  | SettleAuction coll tok =>
      coll ← addr_validate p coll; execute_settle_auction v e funds st coll tok
  end.

(** * instantiate.rs *)

(** instantiate.rs:72-88 and sudo.rs:209-233: the loop that records minimum reserve prices. *)
Fixpoint add_mins (m : gmap string N) (cs : list coin) : result (gmap string N) :=
  match cs with
  | [] => Ok m
  | c :: cs =>
      match m !! c_denom c with
      | Some _ => Err EInvalidInput
      | None => add_mins (<[c_denom c := c_amount c]> m) cs
      end
  end.

(** instantiate.rs:16-99; the fields of InstantiateMsg (msg.rs:8-40) are those of the configuration. *)
Definition instantiate (c : config) (mins : list coin) : result state :=
  fair_burn ← addr_validate p (cf_fair_burn c);
  config_validate c ;;
  m ← add_mins ∅ mins;
  Ok (State c m (HaltManager 0 []) ∅).

(** * sudo.rs *)

(** sudo.rs:50-77.  [u64] arithmetic panics on under- and overflow. *)
Definition sudo_begin_block (e : env) (st : state) : result (state * list cmsg) :=
  let cfg := s_config st in
  let h := s_halt st in
  let now := t_seconds (e_time e) in
  ensure (hm_prev h <=? now) EPanic ;;
  let since := now - hm_prev h in
  ws ← (if (0 <? hm_prev h) && (cf_halt_threshold cfg <=? since) then
          end_time ← add64 now (cf_halt_buffer cfg);
          Ok (hm_windows h ++ [HaltWindow (hm_prev h) end_time])
        else Ok (hm_windows h));
  Ok (set_halt st (HaltManager now ws), []).

(** sudo.rs:86-100: the auctions whose end second is below [bound], in index order, at most [limit].  The cast of the limit
    to a 32-bit [usize] is left out here and added in RAWordModel. *)
Definition due_auctions (st : state) (bound limit : N) : list auction :=
  take (N.to_nat limit)
    (snd <$> index_scan ekey_leb entry_ekey (map_to_list (s_auctions st))
               (QOpts (Some false) None None (Some (BExcl (bound, ("", "")))))).

(** sudo.rs:106-115 *)
Fixpoint settle_all (v : view) (now : N) (cfg : config) (h : halt_manager) (st : state) (l : list auction)
    (resp : list cmsg) : result (state * list cmsg) :=
  match l with
  | [] => Ok (st, resp)
  | a :: l =>
      r ← settle_auction v st now a cfg h resp;
      let '(st, resp) := r in
      settle_all v now cfg h st l resp
  end.

(** sudo.rs:79-124 *)
Definition sudo_end_block (v : view) (e : env) (st : state) : result (state * list cmsg) :=
  let cfg := s_config st in
  let h := s_halt st in
  bound ← add64 (t_seconds (e_time e)) 1;
  let due := due_auctions st bound (cf_max_settle cfg) in
  earliest ← match due with
             | [] => Ok None
             | a :: _ => match a_end a with None => Err EPanic | Some t => Ok (Some t) end
             end;
  r ← settle_all v (e_time e) cfg h st due [];
  let '(st, resp) := r in
  Ok (match find_stale_halt_info h earliest with Some h' => set_halt st h' | None => st end, resp).

(** msg.rs:116-127 *)
Record params_update : Type := ParamsUpdate {
  u_fair_burn : option string;
  u_trading_fee : option N;
  u_increment : option N;
  u_min_duration : option N;
  u_extend : option N;
  u_create_fee : option coin;
  u_max_settle : option N;
  u_halt_threshold : option N;
  u_halt_buffer : option N;
  u_halt_postpone : option N;
}.

(** sudo.rs:127-207 *)
Definition sudo_update_params (st : state) (u : params_update) : result (state * list cmsg) :=
  let c := s_config st in
  fair_burn ← match u_fair_burn u with None => Ok (cf_fair_burn c) | Some s => addr_validate p s end;
  let c' := Config fair_burn (default (cf_trading_fee c) (u_trading_fee u)) (default (cf_increment c) (u_increment u))
                   (default (cf_min_duration c) (u_min_duration u)) (cf_max_duration c)
                   (default (cf_extend c) (u_extend u)) (default (cf_create_fee c) (u_create_fee u))
                   (default (cf_max_settle c) (u_max_settle u)) (default (cf_halt_threshold c) (u_halt_threshold u))
                   (default (cf_halt_buffer c) (u_halt_buffer u)) (default (cf_halt_postpone c) (u_halt_postpone u)) in
  config_validate c' ;;
  Ok (State c' (s_mins st) (s_halt st) (s_auctions st), []).

(** sudo.rs:209-233 *)
Definition sudo_set_min_reserve_prices (st : state) (cs : list coin) : result (state * list cmsg) :=
  m ← add_mins (s_mins st) cs;
  Ok (State (s_config st) m (s_halt st) (s_auctions st), []).

(** sudo.rs:235-250 *)
Fixpoint remove_mins (m : gmap string N) (ds : list denom) : result (gmap string N) :=
  match ds with
  | [] => Ok m
  | d :: ds => match m !! d with None => Err EInvalidInput | Some _ => remove_mins (delete d m) ds end
  end.
Definition sudo_unset_min_reserve_prices (st : state) (ds : list denom) : result (state * list cmsg) :=
  m ← remove_mins (s_mins st) ds;
  Ok (State (s_config st) m (s_halt st) (s_auctions st), []).

(** msg.rs:113-134, and [migrate] (migrate.rs:12-16, which only rewrites the version record). *)
Inductive sudo_msg : Type :=
  | BeginBlock
  | EndBlock
  | UpdateParams (u : params_update)
  | SetMinReservePrices (cs : list coin)
  | UnsetMinReservePrices (ds : list denom)
  | Migrate.

(** sudo.rs:14-48 *)
Definition sudo (v : view) (e : env) (st : state) (m : sudo_msg) : result (state * list cmsg) :=
  match m with
  | BeginBlock => sudo_begin_block e st
  | EndBlock => sudo_end_block v e st
  | UpdateParams u => sudo_update_params st u
  | SetMinReservePrices cs => sudo_set_min_reserve_prices st cs
  | UnsetMinReservePrices ds => sudo_unset_min_reserve_prices st ds
  | Migrate => Ok (st, [])
  end.

(** * query.rs *)

(** sg-marketplace-common 1.1.0 [unpack_query_options] (assumed): start_after is an exclusive lower bound in
    ascending and an exclusive upper bound in descending order; limits 10 and 100 (query.rs:10-11). *)
Definition unpack_query_options {K} (desc : option bool) (limit : option N) (start_after : option K) : qopts K :=
  if default false desc then QOpts (Some true) limit None (BExcl <$> start_after)
  else QOpts (Some false) limit (BExcl <$> start_after) None.

(** query.rs:58-76 *)
Definition query_min_reserve_prices (st : state) (desc : option bool) (limit : option N) (start_after : option denom)
    : list coin :=
  (fun x => Coin (fst x) (snd x)) <$>
    index_range str_leb fst (map_to_list (s_mins st)) (unpack_query_options desc limit start_after).

(** query.rs:78-86 *)
Definition query_auction (st : state) (coll tok : string) : result (option auction) :=
  coll ← addr_validate p coll; Ok (s_auctions st !! (coll, tok)).

(** query.rs:88-112; entries of one seller, ordered by primary key. *)
Definition query_auctions_by_seller (st : state) (seller : string) (desc : option bool) (limit : option N)
    (start_after : option akey) : result (list auction) :=
  addr_validate p seller ;;
  Ok (snd <$> index_range akey_leb fst
        (List.filter (fun x => bool_decide (a_seller (snd x) = seller)) (map_to_list (s_auctions st)))
        (unpack_query_options desc limit start_after)).

(** query.rs:114-152 *)
Definition query_auctions_by_end_time (st : state) (end_time : N) (desc : option bool) (limit : option N)
    (start_after : option akey) : list auction :=
  let o := unpack_query_options desc limit (Some (end_time, default ("", "") start_after)) in
  let max := match qo_max o with Some b => b | None => BExcl (U64_MAX, ("", "")) end in
  snd <$> index_range ekey_leb entry_ekey (map_to_list (s_auctions st))
            (QOpts (qo_desc o) (qo_limit o) (qo_min o) (Some max)).
End Model.
