(** Specification vocabulary for marketplace v2.  Nothing here mentions the handlers or their helpers: only the
    order records, the response messages, and closed formulas. *)
From Verif Require Import Base Common Chain ChainFacts V2Model.

(** * Sums *)
Definition in_denom (d : denom) (c : coin) : N := if decide (c_denom c = d) then c_amount c else 0.
Definition sum_map {A} (f : A -> N) (m : gmap string A) : N := map_fold (fun _ x n => f x + n) 0 m.
(** What the contract owes its bidders in denom [d]. *)
Definition escrow (st : state) (d : denom) : N :=
  sum_map (fun b => in_denom d (d_price (b_det b))) (s_bids st) +
  sum_map (fun cb => in_denom d (d_price (cb_det cb))) (s_cbids st).
(** Coins in a list of coins, and coins leaving the contract in a response. *)
Fixpoint coins_in (cs : list coin) (d : denom) : N :=
  match cs with [] => 0 | c :: cs => in_denom d c + coins_in cs d end.
Fixpoint paid_out (ms : list cmsg) (d : denom) : N :=
  match ms with
  | [] => 0
  | MSend _ cs :: ms => coins_in cs d + paid_out ms d
  | MFairBurn c :: ms => in_denom d c + paid_out ms d
  | _ :: ms => paid_out ms d
  end.
(** Calls that never look at the attached coins. *)
Definition no_coin_call (m : msg) : bool :=
  match m with
  | UpdateConfig _ | UpdateCollectionDenom _ _ | SetListingFee _ | RemoveListingFee _
  | AcceptBid _ _ | AcceptCollectionBid _ _ _ => true
  | _ => false
  end.
Definition admin_call (m : msg) : bool :=
  match m with
  | UpdateConfig _ | UpdateCollectionDenom _ _ | SetListingFee _ | RemoveListingFee _ => true
  | _ => false
  end.

(** * Histories *)
Definition v2_sudo (_ : view) (_ : env) (st : state) (_ : unit) : result (state * list cmsg) :=
  st' ← migrate st; Ok (st', []).
Definition v2_step (p : params) : world state -> world state -> Prop := step p (execute p) v2_sudo.
(** The contract has just been instantiated; it has granted no approvals over NFTs it may own. *)
Definition v2_init (p : params) (w : world state) : Prop :=
  (exists c, instantiate p c = Ok (w_st w)) /\ nft_wf p w.
Definition reachable (p : params) (w : world state) : Prop := exists w0, v2_init p w0 /\ rtc (v2_step p) w0 w.
(** The storage after [n] successful calls. *)
Definition v2_history (p : params) (n : nat) (st : state) : Prop :=
  exists c st0, instantiate p c = Ok st0 /\ nsteps (hstep p (execute p)) n st0 st.

(** * Assumptions on addresses and the hash, used where stated *)
Definition collision_free (p : params) : Prop := forall x y, p_hash p x = p_hash p y -> x = y.
Fixpoint has_slash (s : string) : bool :=
  match s with EmptyString => false | String x s => Ascii.eqb x "/"%char || has_slash s end.
Definition slash_free (p : params) : Prop := forall s, p_valid p s = true -> has_slash s = false.
Definition prefix_free (p : params) : Prop :=
  forall s t r, p_valid p s = true -> p_valid p t = true -> s +:+ r = t -> s = t.

(** * Orders *)
Definition price_of (mb : matching_bid) : coin :=
  match mb with MBid b => d_price (b_det b) | MCBid cb => d_price (cb_det cb) end.
Definition finder_of (mb : matching_bid) : option addr :=
  match mb with MBid b => d_finder (b_det b) | MCBid cb => d_finder (cb_det cb) end.
Definition buyer_of (mb : matching_bid) : addr := match mb with MBid b => b_creator b | MCBid cb => cb_creator cb end.
Definition nft_to (mb : matching_bid) : addr :=
  match mb with
  | MBid b => match d_recipient (b_det b) with Some r => r | None => b_creator b end
  | MCBid cb => match d_recipient (cb_det cb) with Some r => r | None => cb_creator cb end
  end.
Definition proceeds_to (a : ask) : addr := match d_recipient (a_det a) with Some r => r | None => a_creator a end.
Definition resting (st : state) (mb : matching_bid) : Prop :=
  match mb with MBid b => s_bids st !! b_id b = Some b | MCBid cb => s_cbids st !! cb_id cb = Some cb end.
(** The bid could buy this NFT. *)
Definition wants (mb : matching_bid) (coll : addr) (tok : token) (dn : denom) : Prop :=
  c_denom (price_of mb) = dn /\
  match mb with MBid b => b_coll b = coll /\ b_tok b = tok | MCBid cb => cb_coll cb = coll end.

(** Which orders trade in a call, and which was first in the book: [ask_first] means the listing was there and the
    price is the ask's; otherwise the bid was resting (or is being accepted) and the price is the bid's. *)
Inductive trade (sender : addr) (st : state) : msg -> ask -> matching_bid -> bool -> Prop :=
  | TradeList m id coll tok d mb :
      (m = SetAsk coll tok d \/ m = SellNft coll tok d) -> resting st mb ->
      trade sender st m (Ask id sender coll tok d) mb false
  | TradeUpdateAsk id d a mb :
      s_asks st !! id = Some a -> a_creator a = sender -> resting st mb ->
      trade sender st (UpdateAsk id d) (Ask (a_id a) (a_creator a) (a_coll a) (a_tok a) d) mb false
  | TradeAcceptAsk id d a bid_id :
      s_asks st !! id = Some a ->
      trade sender st (AcceptAsk id d) a (MBid (Bid bid_id sender (a_coll a) (a_tok a) d)) true
  | TradeBid m coll tok d a bid_id :
      (m = SetBid coll tok d \/ m = BuySpecificNft coll tok d) -> s_asks st !! a_id a = Some a ->
      trade sender st m a (MBid (Bid bid_id sender coll tok d)) true
  | TradeUpdateBid id d b a :
      s_bids st !! id = Some b -> b_creator b = sender -> s_asks st !! a_id a = Some a ->
      trade sender st (UpdateBid id d) a (MBid (Bid (b_id b) (b_creator b) (b_coll b) (b_tok b) d)) true
  | TradeAcceptBid id d b a :
      s_bids st !! id = Some b ->
      (s_asks st !! a_id a = Some a /\ a_creator a = sender \/ exists i, a = Ask i sender (b_coll b) (b_tok b) d) ->
      trade sender st (AcceptBid id d) a (MBid b) false
  | TradeCBid m coll d a bid_id :
      (m = SetCollectionBid coll d \/ m = BuyCollectionNft coll d) -> s_asks st !! a_id a = Some a ->
      trade sender st m a (MCBid (CBid bid_id sender coll d)) true
  | TradeUpdateCBid id d cb a :
      s_cbids st !! id = Some cb -> cb_creator cb = sender -> s_asks st !! a_id a = Some a ->
      trade sender st (UpdateCollectionBid id d) a (MCBid (CBid (cb_id cb) (cb_creator cb) (cb_coll cb) d)) true
  | TradeAcceptCBid id tok d cb a :
      s_cbids st !! id = Some cb ->
      (s_asks st !! a_id a = Some a /\ a_creator a = sender \/ exists i, a = Ask i sender (cb_coll cb) tok d) ->
      trade sender st (AcceptCollectionBid id tok d) a (MCBid cb) false.

Definition trade_price (a : ask) (mb : matching_bid) (ask_first : bool) : coin :=
  if ask_first then d_price (a_det a) else price_of mb.
(** The finder of the order that was in the book first, and of the incoming one. *)
Definition maker (a : ask) (mb : matching_bid) (ask_first : bool) : option addr :=
  if ask_first then d_finder (a_det a) else finder_of mb.
Definition taker (a : ask) (mb : matching_bid) (ask_first : bool) : option addr :=
  if ask_first then finder_of mb else d_finder (a_det a).

(** An NFT was sold by the call: it was sent away although the call neither withdraws nor creates a listing. *)
Definition sells (st : state) (m : msg) (st' : state) (msgs : list cmsg) (c : addr) (t : token) (to : addr) : Prop :=
  MNft c t to ∈ msgs /\ (forall id, m <> RemoveAsk id) /\
  (forall i, is_Some (s_asks st' !! i) -> is_Some (s_asks st !! i)).

(** * Fees *)
Definition ceil_div (x y : N) : N := (x + (y - 1)) / y.
Definition if_some (o : option addr) (n : N) : N := match o with Some _ => n | None => 0 end.
(** (recipient, amount) for protocol, maker and taker. *)
Definition protocol_part (cfg : config) (price : N) (mk tk : option addr) : N :=
  ceil_div (price * cf_protocol_bps cfg * (10000 - if_some mk (cf_maker_bps cfg) - if_some tk (cf_taker_bps cfg)))
           100000000.
Definition reward_part (cfg : config) (price : N) (o : option addr) (bps : N) : N :=
  ceil_div (price * cf_protocol_bps cfg * if_some o bps) 100000000.
Definition royalty_part (cfg : config) (price share : N) : N :=
  ceil_div (price * N.min share (cf_max_royalty_bps cfg * 100000000000000)) 1000000000000000000.
(** The royalty that applies: the registry's protocol-specific entry, else its default entry, else what the collection
    itself advertises. *)
Definition royalty_due (p : params) (v : view) (cfg : config) (coll : addr) : option (addr * N) :=
  match q_royalty v (cf_registry cfg) coll (Some (p_self p)) with
  | Ok (Some e, _) => Some (re_recipient e, re_share e)
  | Ok (None, Some e) => Some (re_recipient e, re_share e)
  | Ok (None, None) => match q_info v coll with Some ci => ci_royalty ci | None => None end
  | Err _ => None
  end.
Definition sale_dues (p : params) (v : view) (cfg : config) (a : ask) (mb : matching_bid) (ask_first : bool)
  : list (addr * N) :=
  let price := c_amount (trade_price a mb ask_first) in
  let mk := maker a mb ask_first in let tk := taker a mb ask_first in
  [(cf_fee_manager cfg, protocol_part cfg price mk tk)] ++
  (match mk with Some x => [(x, reward_part cfg price mk (cf_maker_bps cfg))] | None => [] end) ++
  (match tk with Some x => [(x, reward_part cfg price tk (cf_taker_bps cfg))] | None => [] end) ++
  (match royalty_due p v cfg (a_coll a) with Some (r, s) => [(r, royalty_part cfg price s)] | None => [] end).
Definition total_dues (l : list (addr * N)) : N := foldr (fun x n => snd x + n) 0 l.
(** All payments of a sale: the dues, and the rest for the seller; nothing is sent for a zero amount. *)
Definition sale_payments (p : params) (v : view) (cfg : config) (a : ask) (mb : matching_bid) (ask_first : bool)
  : list (addr * N) :=
  let dues := sale_dues p v cfg a mb ask_first in
  List.filter (fun x => 0 <? snd x)
    (dues ++ [(proceeds_to a, c_amount (trade_price a mb ask_first) - total_dues dues)]).
Definition send_one (dn : denom) (x : addr * N) : cmsg := MSend (fst x) [Coin dn (snd x)].

(** At most one transfer, to the sender, of positive coins. *)
Definition change_to (sender : addr) (back : list cmsg) : Prop :=
  back = [] \/ exists cs, back = [MSend sender cs] /\ cs <> [] /\ Forall (fun c => 0 < c_amount c) cs.

(** The response of a call that sells [a] to [mb]: first the listing fee is forwarded (listing calls only) and the
    royalty registry may be told about the collection, then come exactly the payments of the sale, then the NFT goes
    to the buyer's recipient, then at most one transfer returns surplus coins to the sender. *)
Definition forwards (cfg : config) (funds : list coin) (m : msg) (coll : addr) (pre : list cmsg) : Prop :=
  exists fee reg, pre = fee ++ reg /\
    ((exists c tok d, m = SetAsk c tok d \/ m = SellNft c tok d) /\ fee = [MSend (cf_fee_manager cfg) funds] \/
     (forall c tok d, m <> SetAsk c tok d /\ m <> SellNft c tok d) /\ fee = []) /\
    (reg = [] \/ reg = [MRegInit (cf_registry cfg) coll]).
Definition settles (p : params) (v : view) (cfg : config) (sender : addr) (funds : list coin) (m : msg)
    (msgs : list cmsg) (a : ask) (mb : matching_bid) (ask_first : bool) : Prop :=
  exists pre post,
    msgs = pre ++ (send_one (c_denom (trade_price a mb ask_first)) <$> sale_payments p v cfg a mb ask_first)
               ++ MNft (a_coll a) (a_tok a) (nft_to mb) :: post /\
    forwards cfg funds m (a_coll a) pre /\ change_to sender post /\
    0 < c_amount (trade_price a mb ask_first) /\
    total_dues (sale_dues p v cfg a mb ask_first) <= c_amount (trade_price a mb ask_first).

(** * Matching *)
Definition fits (st : state) (coll : addr) (tok : token) (price : coin) (mb : matching_bid) : Prop :=
  resting st mb /\ wants mb coll tok (c_denom price) /\ c_amount price <= c_amount (price_of mb).
Definition is_token_bid (mb : matching_bid) : Prop := match mb with MBid _ => True | MCBid _ => False end.
Definition best_bid (st : state) (coll : addr) (tok : token) (price : coin) (mb : matching_bid) : Prop :=
  fits st coll tok price mb /\
  forall mb', fits st coll tok price mb' ->
    c_amount (price_of mb') < c_amount (price_of mb) \/
    (c_amount (price_of mb') = c_amount (price_of mb) /\ (is_token_bid mb' -> is_token_bid mb)).
Inductive ask_call (st : state) : msg -> addr -> token -> coin -> Prop :=
  | AskCallSet coll tok d : ask_call st (SetAsk coll tok d) coll tok (d_price d)
  | AskCallSell coll tok d : ask_call st (SellNft coll tok d) coll tok (d_price d)
  | AskCallUpdate id d a : s_asks st !! id = Some a -> ask_call st (UpdateAsk id d) (a_coll a) (a_tok a) (d_price d).

(** Bid calls; the token is [None] for collection bids. *)
Inductive bid_call (st : state) : msg -> addr -> option token -> coin -> Prop :=
  | BidCallSet coll tok d : bid_call st (SetBid coll tok d) coll (Some tok) (d_price d)
  | BidCallBuy coll tok d : bid_call st (BuySpecificNft coll tok d) coll (Some tok) (d_price d)
  | BidCallUpdate id d b : s_bids st !! id = Some b -> bid_call st (UpdateBid id d) (b_coll b) (Some (b_tok b)) (d_price d)
  | CBidCallSet coll d : bid_call st (SetCollectionBid coll d) coll None (d_price d)
  | CBidCallBuy coll d : bid_call st (BuyCollectionNft coll d) coll None (d_price d)
  | CBidCallUpdate id d cb :
      s_cbids st !! id = Some cb -> bid_call st (UpdateCollectionBid id d) (cb_coll cb) None (d_price d).
Definition offered (st : state) (coll : addr) (tok : option token) (price : coin) (a : ask) : Prop :=
  s_asks st !! a_id a = Some a /\ a_coll a = coll /\ (forall t, tok = Some t -> a_tok a = t) /\
  c_denom (d_price (a_det a)) = c_denom price /\ c_amount (d_price (a_det a)) <= c_amount price.
Definition cheapest (st : state) (coll : addr) (tok : option token) (price : coin) (a : ask) : Prop :=
  offered st coll tok price a /\
  forall a', offered st coll tok price a' -> c_amount (d_price (a_det a)) <= c_amount (d_price (a_det a')).

(** The lowest price the seller agreed to: what the accepting call says (in a [trade], it is the seller's own), else
    what the listing says. *)
Definition seller_min (m : msg) (a : ask) : coin :=
  match m with AcceptBid _ d | AcceptCollectionBid _ _ d => d_price d | _ => d_price (a_det a) end.

(** An NFT that is not listed. *)
Definition unlisted (st : state) (coll : addr) (tok : token) : Prop :=
  forall i a, s_asks st !! i = Some a -> ~ (a_coll a = coll /\ a_tok a = tok).

(** Trading has not started according to the collection. *)
Definition not_yet_tradable (v : view) (e : env) (coll : addr) : Prop :=
  exists ci start, q_info v coll = Some ci /\ ci_start ci = Some start /\ e_time e < start.

(** Calls that pay: what is already in escrow for the order, and the new limit price. *)
Inductive paying_call (st : state) : msg -> option coin -> coin -> Prop :=
  | PaySetBid coll tok d : paying_call st (SetBid coll tok d) None (d_price d)
  | PayBuy coll tok d : paying_call st (BuySpecificNft coll tok d) None (d_price d)
  | PayAcceptAsk id d : paying_call st (AcceptAsk id d) None (d_price d)
  | PayUpdateBid id d b : s_bids st !! id = Some b -> paying_call st (UpdateBid id d) (Some (d_price (b_det b))) (d_price d)
  | PaySetCBid coll d : paying_call st (SetCollectionBid coll d) None (d_price d)
  | PayBuyCBid coll d : paying_call st (BuyCollectionNft coll d) None (d_price d)
  | PayUpdateCBid id d cb :
      s_cbids st !! id = Some cb -> paying_call st (UpdateCollectionBid id d) (Some (d_price (cb_det cb))) (d_price d).
Definition opt_in_denom (d : denom) (o : option coin) : N := match o with Some c => in_denom d c | None => 0 end.

(** Storage histories in which every call satisfied [Q] (on its query answers and block environment). *)
Definition v2_history_with (p : params) (Q : view -> env -> addr -> Prop) (st : state) : Prop :=
  exists c st0, instantiate p c = Ok st0 /\
    rtc (fun s s' => exists v e sender funds m msgs,
           sender <> p_self p /\ Q v e sender /\ execute p v e sender funds s m = Ok (s', msgs)) st0 st.

(** The six calls that open a position, and the collection they name. *)
Definition opens (m : msg) : option addr :=
  match m with
  | SetAsk coll _ _ | SellNft coll _ _ | SetBid coll _ _ | BuySpecificNft coll _ _
  | SetCollectionBid coll _ | BuyCollectionNft coll _ => Some coll
  | _ => None
  end.
Definition immediate (m : msg) : bool :=
  match m with SellNft _ _ _ | BuySpecificNft _ _ _ | BuyCollectionNft _ _ => true | _ => false end.
Definition submap {A} (m m' : gmap order_id A) : Prop := forall i x, m !! i = Some x -> m' !! i = Some x.
(** Calls by which somebody sells an NFT that is not listed. *)
Inductive owner_call (st : state) : msg -> addr -> token -> Prop :=
  | OwnerSet coll tok d : owner_call st (SetAsk coll tok d) coll tok
  | OwnerSell coll tok d : owner_call st (SellNft coll tok d) coll tok
  | OwnerAcceptBid id d b :
      s_bids st !! id = Some b -> unlisted st (b_coll b) (b_tok b) -> owner_call st (AcceptBid id d) (b_coll b) (b_tok b)
  | OwnerAcceptCBid id tok d cb :
      s_cbids st !! id = Some cb -> unlisted st (cb_coll cb) tok ->
      owner_call st (AcceptCollectionBid id tok d) (cb_coll cb) tok.
(** A sale in the collection does not have to write to the royalty registry. *)
Definition royalty_known (p : params) (v : view) (cfg : config) (coll : addr) : Prop :=
  (exists x y, q_royalty v (cf_registry cfg) coll (Some (p_self p)) = Ok (x, y) /\ (x <> None \/ y <> None)) \/
  (forall ci, q_info v coll = Some ci -> ci_royalty ci = None).

(** * Well-formed requests *)
Definition named_ok (p : params) (d : details) : Prop :=
  (forall r, d_recipient d = Some r -> p_valid p r = true) /\ (forall f, d_finder d = Some f -> p_valid p f = true).
(** A positive price in the collection's denom. *)
Definition priced (st : state) (coll : addr) (price : coin) : Prop :=
  0 < c_amount price /\
  c_denom price = match s_denoms st !! coll with Some dn => dn | None => cf_default_denom (s_config st) end.
(** The answers a sale needs: the royalty registry responds and an advertised royalty address is a real one. *)
Definition royalty_answers (p : params) (v : view) (cfg : config) (coll : addr) : Prop :=
  (exists r, q_royalty v (cf_registry cfg) coll (Some (p_self p)) = Ok r) /\
  (forall ci pa sh, q_info v coll = Some ci -> ci_royalty ci = Some (pa, sh) -> p_valid p pa = true).
(** Protocol fee and capped royalty leave a [margin] (out of 10^18), which covers one unit of rounding per fee. *)
Definition fees_leave_room (p : params) (v : view) (cfg : config) (a : ask) (mb : matching_bid) (ask_first : bool)
    (margin : N) : Prop :=
  cf_protocol_bps cfg * 100000000000000 +
    match royalty_due p v cfg (a_coll a) with
    | Some (_, s) => N.min s (cf_max_royalty_bps cfg * 100000000000000) | None => 0 end + margin
    <= 1000000000000000000 /\
  N.of_nat (length (sale_dues p v cfg a mb ask_first)) * 1000000000000000000
    <= c_amount (trade_price a mb ask_first) * margin.

(** Keys of the price-ordered queries. *)
Definition ask_key (a : ask) : N * string := (c_amount (d_price (a_det a)), a_id a).
Definition bid_key (b : bid) : N * string := (c_amount (d_price (b_det b)), b_id b).
Definition cbid_key (cb : cbid) : N * string := (c_amount (d_price (cb_det cb)), cb_id cb).

(** * What the chain needs to execute a response *)
(** Nobody in the response is barred from receiving coins. *)
Definition receivable (p : params) (msgs : list cmsg) : Prop :=
  forall to cs, MSend to cs ∈ msgs -> p_blocked p to = false.
(** The NFT contracts let the marketplace move the NFTs named in the response. *)
Definition movable (p : params) (w : world state) (msgs : list cmsg) : Prop :=
  forall c t to, MNft c t to ∈ msgs ->
    c <> p_self p /\ (p_honest p c = true -> can_transfer w c t (p_self p) = true).

(** * Exact effect of calls *)
(** A call that places, changes or withdraws an order without a sale changes exactly that order: it ends up with the
    details given in the message, every other order stays as it is, and these are all the messages sent. *)
Inductive rests (p : params) (sender : addr) (funds : list coin) (st st' : state) : msg -> list cmsg -> Prop :=
  | RestSetAsk coll tok d i :
      s_asks st !! i = None -> s_asks st' = <[i := Ask i sender coll tok d]> (s_asks st) ->
      s_bids st' = s_bids st -> s_cbids st' = s_cbids st ->
      rests p sender funds st st' (SetAsk coll tok d)
        [MSend (cf_fee_manager (s_config st)) funds; MNft coll tok (p_self p)]
  | RestUpdateAsk i d a :
      s_asks st !! i = Some a -> a_creator a = sender ->
      s_asks st' = <[i := Ask i sender (a_coll a) (a_tok a) d]> (s_asks st) ->
      s_bids st' = s_bids st -> s_cbids st' = s_cbids st ->
      rests p sender funds st st' (UpdateAsk i d) []
  | RestRemoveAsk i a :
      s_asks st !! i = Some a -> a_creator a = sender -> s_asks st' = delete i (s_asks st) ->
      s_bids st' = s_bids st -> s_cbids st' = s_cbids st ->
      rests p sender funds st st' (RemoveAsk i) [MNft (a_coll a) (a_tok a) (proceeds_to a)]
  | RestSetBid coll tok d i back :
      s_bids st !! i = None -> s_bids st' = <[i := Bid i sender coll tok d]> (s_bids st) ->
      s_asks st' = s_asks st -> s_cbids st' = s_cbids st -> change_to sender back ->
      rests p sender funds st st' (SetBid coll tok d) back
  | RestUpdateBid i d b back :
      s_bids st !! i = Some b -> b_creator b = sender ->
      s_bids st' = <[i := Bid i sender (b_coll b) (b_tok b) d]> (s_bids st) ->
      s_asks st' = s_asks st -> s_cbids st' = s_cbids st -> change_to sender back ->
      rests p sender funds st st' (UpdateBid i d) back
  | RestRemoveBid i b :
      s_bids st !! i = Some b -> b_creator b = sender -> s_bids st' = delete i (s_bids st) ->
      s_asks st' = s_asks st -> s_cbids st' = s_cbids st ->
      rests p sender funds st st' (RemoveBid i) [MSend sender [d_price (b_det b)]]
  | RestSetCBid coll d i back :
      s_cbids st !! i = None -> s_cbids st' = <[i := CBid i sender coll d]> (s_cbids st) ->
      s_asks st' = s_asks st -> s_bids st' = s_bids st -> change_to sender back ->
      rests p sender funds st st' (SetCollectionBid coll d) back
  | RestUpdateCBid i d b back :
      s_cbids st !! i = Some b -> cb_creator b = sender ->
      s_cbids st' = <[i := CBid i sender (cb_coll b) d]> (s_cbids st) ->
      s_asks st' = s_asks st -> s_bids st' = s_bids st -> change_to sender back ->
      rests p sender funds st st' (UpdateCollectionBid i d) back
  | RestRemoveCBid i b :
      s_cbids st !! i = Some b -> cb_creator b = sender -> s_cbids st' = delete i (s_cbids st) ->
      s_asks st' = s_asks st -> s_bids st' = s_bids st ->
      rests p sender funds st st' (RemoveCollectionBid i) [MSend sender [d_price (cb_det b)]].
(** A sale takes exactly the two traded orders out of the book. *)
Definition takes_out (st st' : state) (a : ask) (mb : matching_bid) : Prop :=
  s_asks st' = delete (a_id a) (s_asks st) /\
  match mb with
  | MBid b => s_bids st' = delete (b_id b) (s_bids st) /\ s_cbids st' = s_cbids st
  | MCBid b => s_cbids st' = delete (cb_id b) (s_cbids st) /\ s_bids st' = s_bids st
  end.

(** What an administrative call sets, and when it is acceptable. *)
Definition config_ok (p : params) (c : config) : Prop :=
  p_valid p (cf_fee_manager c) = true /\ p_valid p (cf_registry c) = true /\
  cf_protocol_bps c < 10000 /\ cf_maker_bps c + cf_taker_bps c < 10000.
Inductive configures (p : params) (st : state) : msg -> state -> Prop :=
  | ConfUpdate c : config_ok p c ->
      configures p st (UpdateConfig c) (State c (s_denoms st) (s_fees st) (s_nonce st) (s_asks st) (s_bids st) (s_cbids st))
  | ConfDenom coll dn : p_valid p coll = true ->
      configures p st (UpdateCollectionDenom coll dn)
        (State (s_config st) (<[coll := dn]> (s_denoms st)) (s_fees st) (s_nonce st) (s_asks st) (s_bids st) (s_cbids st))
  | ConfFee f :
      configures p st (SetListingFee f)
        (State (s_config st) (s_denoms st) (<[c_denom f := c_amount f]> (s_fees st)) (s_nonce st) (s_asks st) (s_bids st) (s_cbids st))
  | ConfNoFee dn :
      configures p st (RemoveListingFee dn)
        (State (s_config st) (s_denoms st) (delete dn (s_fees st)) (s_nonce st) (s_asks st) (s_bids st) (s_cbids st)).

(** The collection advertises a royalty of which the registry knows nothing. *)
Definition royalty_unregistered (p : params) (v : view) (cfg : config) (coll : addr) : Prop :=
  q_royalty v (cf_registry cfg) coll (Some (p_self p)) = Ok (None, None) /\
  exists ci x, q_info v coll = Some ci /\ ci_royalty ci = Some x.
