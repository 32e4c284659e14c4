(** Specification vocabulary for marketplace v1, independent of the handlers. *)
From stdpp Require Import relations pretty.
From Verif Require Import Base Common Chain ChainFacts IndexRange QuerySpec V1Model.

(** * Histories *)
Section Histories.
Context (p : params) (x : ext).

Definition v1_step : world state -> world state -> Prop := step p (execute p x) (sudo p).
Definition v1_init (w : world state) : Prop := (exists m, instantiate p m = Ok (w_st w)) /\ nft_wf p w.
Definition v1_reachable (w : world state) : Prop := exists w0, v1_init w0 /\ rtc v1_step w0 w.

(** The same at the level of the storage: any calls with any query answers, at any time. *)
Inductive v1_call (st st' : state) : Prop :=
  | call_execute v e sender funds m msgs :
      sender <> p_self p -> execute p x v e sender funds st m = Ok (st', msgs) -> v1_call st st'
  | call_sudo v e m msgs : sudo p v e st m = Ok (st', msgs) -> v1_call st st'.
Definition v1_history (st : state) : Prop := exists m st0, instantiate p m = Ok st0 /\ rtc v1_call st0 st.
End Histories.

(** * Money *)
Definition native (n : N) : coin := Coin "ustars" n.
(** What the contract holds for others: the resting bids and collection bids. *)
Definition bids_total (st : state) : N := map_fold (fun _ b n => b_price b + n) 0 (s_bids st).
Definition cbids_total (st : state) : N := map_fold (fun _ b n => cb_price b + n) 0 (s_cbids st).

(** * Conditions *)
Definition owns (v : view) (who coll : addr) (tok : N) : Prop := q_owner v coll (pretty tok) = Some who.
Definition tradable (v : view) (e : env) (coll : addr) : Prop :=
  forall ci start, q_info v coll = Some ci -> ci_start ci = Some start -> start <= e_time e.
(** Later than now + min, not later than now + max. *)
Definition in_window (r : expiry_range) (now expires : N) : Prop :=
  now + er_min r * 1000000000 < expires <= now + er_max r * 1000000000.
Definition live (e : env) (expires : N) : Prop := e_time e < expires.
(** A finder's fee, in percent, within the configured maximum. *)
Definition finder_allowed (st : state) (bps : option N) : Prop :=
  forall b, bps = Some b -> b * 10 ^ 16 <= sp_max_finders_fee (s_params st).
Definition operator (st : state) (who : addr) : Prop := who ∈ sp_operators (s_params st).
(** The stale period after expiry is over. *)
Definition stale (st : state) (now expires : N) : Prop :=
  exists secs, sp_stale (s_params st) = DTime secs /\ expires + secs * 1000000000 <= now.

(** * The price split of a sale *)
Record split : Type := Split { x_fee : N; x_finder : N; x_royalty : option (addr * N); x_seller : N }.
(** [rate]: trading fee in percent (raw Decimal); [bps]: finder's fee; [royalty]: the collection's royalty. *)
Definition finders_cut (price : N) (finder : option addr) (bps : option N) : N :=
  match finder, bps with Some _, Some b => price * b / 10000 | _, _ => 0 end.
Definition split_of (rate price : N) (finder : option addr) (bps : option N) (royalty : option (addr * N)) : split :=
  let fee := price * rate / 10 ^ 20 in
  let cut := finders_cut price finder bps in
  match royalty with
  | Some (to, share) =>
      if share =? 0 then Split fee cut None (price - fee - cut)
      else Split fee cut (Some (to, price * share / 10 ^ 18)) (price * (10 ^ 18 - share) / 10 ^ 18 - fee - cut)
  | None => Split fee cut None (price - fee - cut)
  end.
(** The parts fit into the price. *)
Definition split_fits (sp : split) (price : N) : Prop :=
  let parts := x_fee sp + x_finder sp + match x_royalty sp with Some (_, n) => n | None => 0 end + x_seller sp in
  parts = price \/ parts + 1 = price.

(** The messages of a sale: fee, finder, royalty, seller, NFT. *)
Definition pay (to : addr) (n : N) : cmsg := MSend to [native n].
Definition split_msgs (x : ext) (sp : split) (finder : option addr) (seller_to : addr) : list cmsg :=
  (if (x_fee sp =? 0) && x_zero_burn x then [] else [MFairBurn (native (x_fee sp))]) ++
  (match finder with Some f => if x_finder sp =? 0 then [] else [pay f (x_finder sp)] | None => [] end) ++
  (match x_royalty sp with Some (to, n) => [pay to n] | None => [] end) ++
  [pay seller_to (x_seller sp)].
Definition hook_msgs (hooks : list addr) : list cmsg := map MHook hooks.

(** A fresh bid of a caller replaces their previous one; the previous one is refunded. *)
Definition refund_of (st : state) (coll : addr) (tok : N) (who : addr) : list cmsg :=
  match s_bids st !! (coll, tok, who) with Some b => [pay who (b_price b)] | None => [] end.
Definition crefund_of (st : state) (coll : addr) (who : addr) : list cmsg :=
  match s_cbids st !! (coll, who) with Some b => [pay who (cb_price b)] | None => [] end.

(** * Bidding calls *)
Record bid_args : Type := BidArgs {
  ba_coll : addr; ba_tok : N; ba_expires : N; ba_finder : option addr; ba_bps : option N;
  ba_to : option addr;   (* BuyFor: who receives the NFT *)
  ba_now : bool;         (* BuyNow, BuyFor *)
}.
Definition bid_call (m : msg) : option bid_args :=
  match m with
  | SetBid coll tok expires finder bps => Some (BidArgs coll tok expires finder bps None false)
  | BuyNow coll tok expires finder bps => Some (BidArgs coll tok expires finder bps None true)
  | BuyFor coll tok expires finder bps to => Some (BidArgs coll tok expires finder bps (Some to) true)
  | _ => None
  end.

(** * What may happen to a resting bid in one call *)

(** The messages pay for a sale of (coll, tok) at [price] to [buyer_to], followed by hook calls. *)
Definition sale_of (x : ext) (v : view) (st : state) (coll : addr) (tok price : N) (seller_to buyer_to : addr)
    (finder : option addr) (bps : option N) (msgs : list cmsg) : Prop :=
  exists ci, q_info v coll = Some ci /\
    let sp := split_of (sp_trading_fee (s_params st)) price finder bps (ci_royalty ci) in
    split_fits sp price /\
    msgs = split_msgs x sp finder seller_to ++ [MNft coll (pretty tok) buyer_to] ++ hook_msgs (s_sale_hooks st).

Inductive bid_fate (x : ext) (v : view) (e : env) (s : addr) (st : state) (m : msg) (b : bid) (msgs : list cmsg) : option bid -> Prop :=
  | bid_kept : bid_fate x v e s st m b msgs (Some b)
  | bid_replaced ba b' :   (* a new bidding call of the bidder: refunded in full, first thing *)
      bid_call m = Some ba -> ba_coll ba = b_coll b -> ba_tok ba = b_tok b -> s = b_bidder b ->
      head msgs = Some (pay (b_bidder b) (b_price b)) ->
      (b' = None \/ exists price, b' = Some (Bid (b_coll b) (b_tok b) (b_bidder b) price (ba_bps ba) (ba_expires ba))) ->
      bid_fate x v e s st m b msgs b'
  | bid_removed :
      m = RemoveBid (b_coll b) (b_tok b) -> s = b_bidder b ->
      msgs = pay (b_bidder b) (b_price b) :: hook_msgs (s_bid_hooks st) ->
      bid_fate x v e s st m b msgs None
  | bid_rejected :
      m = RejectBid (b_coll b) (b_tok b) (b_bidder b) -> owns v s (b_coll b) (b_tok b) ->
      msgs = pay (b_bidder b) (b_price b) :: hook_msgs (s_bid_hooks st) ->
      bid_fate x v e s st m b msgs None
  | bid_accepted finder :
      m = AcceptBid (b_coll b) (b_tok b) (b_bidder b) finder -> owns v s (b_coll b) (b_tok b) -> live e (b_expires b) ->
      sale_of x v st (b_coll b) (b_tok b) (b_price b) s (b_bidder b) finder (b_finders b) msgs ->
      bid_fate x v e s st m b msgs None
  | bid_cleaned reward :
      m = RemoveStaleBid (b_coll b) (b_tok b) (b_bidder b) -> operator st s -> stale st (e_time e) (b_expires b) ->
      reward = b_price b * sp_reward (s_params st) / 10 ^ 20 -> reward <= b_price b ->
      msgs = [pay (b_bidder b) (b_price b - reward); pay s reward] ++ hook_msgs (s_bid_hooks st) ->
      bid_fate x v e s st m b msgs None.

Inductive cbid_fate (x : ext) (v : view) (e : env) (s : addr) (st : state) (m : msg) (b : cbid) (msgs : list cmsg) : option cbid -> Prop :=
  | cbid_kept : cbid_fate x v e s st m b msgs (Some b)
  | cbid_replaced expires bps price :
      m = SetCollectionBid (cb_coll b) expires bps -> s = cb_bidder b ->
      head msgs = Some (pay (cb_bidder b) (cb_price b)) ->
      cbid_fate x v e s st m b msgs (Some (CBid (cb_coll b) (cb_bidder b) price bps expires))
  | cbid_removed :
      m = RemoveCollectionBid (cb_coll b) -> s = cb_bidder b ->
      msgs = [pay (cb_bidder b) (cb_price b)] -> cbid_fate x v e s st m b msgs None
  | cbid_accepted tok finder :
      m = AcceptCollectionBid (cb_coll b) tok (cb_bidder b) finder -> owns v s (cb_coll b) tok -> live e (cb_expires b) ->
      sale_of x v st (cb_coll b) tok (cb_price b) s (cb_bidder b) finder (cb_finders b) msgs ->
      cbid_fate x v e s st m b msgs None
  | cbid_cleaned reward :
      m = RemoveStaleCollectionBid (cb_coll b) (cb_bidder b) -> operator st s -> stale st (e_time e) (cb_expires b) ->
      reward = cb_price b * sp_reward (s_params st) / 10 ^ 20 -> reward <= cb_price b ->
      msgs = [pay (cb_bidder b) (cb_price b - reward); pay s reward] ->
      cbid_fate x v e s st m b msgs None.

(** What may happen to an ask in one call. *)
Inductive ask_fate (v : view) (e : env) (s : addr) (funds : list coin) (st : state) (m : msg) (a : ask) : option ask -> Prop :=
  | ask_kept : ask_fate v e s funds st m a (Some a)
  | ask_relisted a' :          (* by the current owner, who becomes the seller *)
      owns v s (k_coll a) (k_tok a) -> (exists ty price rc rs bps ex, m = SetAsk ty (k_coll a) (k_tok a) price rc rs bps ex) ->
      k_seller a' = s -> ask_fate v e s funds st m a (Some a')
  | ask_repriced price :
      m = UpdateAskPrice (k_coll a) (k_tok a) price -> owns v s (k_coll a) (k_tok a) -> k_active a = true -> live e (k_expires a) ->
      ask_fate v e s funds st m a
        (Some (Ask (k_type a) (k_coll a) (k_tok a) (k_seller a) (c_amount price) (k_recipient a) (k_reserve a) (k_finders a) (k_expires a) true))
  | ask_synced ok :
      m = SyncAsk (k_coll a) (k_tok a) -> operator st s -> k_active a = negb ok ->
      ask_fate v e s funds st m a
        (Some (Ask (k_type a) (k_coll a) (k_tok a) (k_seller a) (k_price a) (k_recipient a) (k_reserve a) (k_finders a) (k_expires a) ok))
  | ask_removed : m = RemoveAsk (k_coll a) (k_tok a) -> owns v s (k_coll a) (k_tok a) -> ask_fate v e s funds st m a None
  | ask_cleaned : m = RemoveStaleAsk (k_coll a) (k_tok a) -> operator st s -> ask_fate v e s funds st m a None
  | ask_bought ba :            (* at the asking price, from the seller who still owns the NFT *)
      bid_call m = Some ba -> ba_coll ba = k_coll a -> ba_tok ba = k_tok a ->
      k_type a = FixedPrice -> k_active a = true -> live e (k_expires a) -> (forall r, k_reserve a = Some r -> r = s) ->
      funds = [native (k_price a)] -> owns v (k_seller a) (k_coll a) (k_tok a) ->
      ask_fate v e s funds st m a None
  | ask_overtaken :            (* the owner accepted a bid on the NFT *)
      (exists who finder, m = AcceptBid (k_coll a) (k_tok a) who finder \/ m = AcceptCollectionBid (k_coll a) (k_tok a) who finder) ->
      owns v s (k_coll a) (k_tok a) -> ask_fate v e s funds st m a None.

(** * Moving NFTs *)

(** The grounds on which a call of [s] moves NFT (coll, tok) to [to]. *)
Inductive mandate (v : view) (e : env) (s : addr) (funds : list coin) (st : state) (m : msg) (coll : addr) (tok : N) (to : addr) : Prop :=
  | by_owner_bid finder b :     (* the owner accepts a live bid of [to] *)
      m = AcceptBid coll tok to finder -> owns v s coll tok -> s_bids st !! (coll, tok, to) = Some b -> live e (b_expires b) ->
      mandate v e s funds st m coll tok to
  | by_owner_cbid finder b :    (* the owner accepts a live collection bid of [to] *)
      m = AcceptCollectionBid coll tok to finder -> owns v s coll tok -> s_cbids st !! (coll, to) = Some b -> live e (cb_expires b) ->
      mandate v e s funds st m coll tok to
  | by_ask ba a :               (* the owner listed it; the caller pays the asking price *)
      bid_call m = Some ba -> ba_coll ba = coll -> ba_tok ba = tok -> s_asks st !! (coll, tok) = Some a ->
      k_type a = FixedPrice -> k_active a = true -> live e (k_expires a) -> (forall r, k_reserve a = Some r -> r = s) ->
      funds = [native (k_price a)] -> owns v (k_seller a) coll tok ->
      to = match ba_to ba with Some r => r | None => s end ->
      mandate v e s funds st m coll tok to.

(** * Sales *)

(** The terms of a sale: who sells which NFT to whom, at what price, who is paid and which finder's fee is due. *)
Record deal : Type := Deal {
  d_coll : addr; d_tok : N; d_price : N;
  d_seller : addr; d_seller_to : addr;     (* the proceeds go to [d_seller_to] *)
  d_buyer : addr; d_buyer_to : addr;       (* the NFT goes to [d_buyer_to] *)
  d_finder : option addr; d_bps : option N;
}.
(** When the call [m] of [s] may close the deal. *)
Inductive closes (v : view) (e : env) (s : addr) (funds : list coin) (st : state) (m : msg) : deal -> Prop :=
  | closes_bid coll tok bidder finder b :
      m = AcceptBid coll tok bidder finder -> funds = [] -> owns v s coll tok -> tradable v e coll ->
      s_bids st !! (coll, tok, bidder) = Some b -> live e (b_expires b) ->
      closes v e s funds st m (Deal coll tok (b_price b) s s bidder bidder finder (b_finders b))
  | closes_cbid coll tok bidder finder b :
      m = AcceptCollectionBid coll tok bidder finder -> funds = [] -> owns v s coll tok -> tradable v e coll ->
      s_cbids st !! (coll, bidder) = Some b -> live e (cb_expires b) ->
      closes v e s funds st m (Deal coll tok (cb_price b) s s bidder bidder finder (cb_finders b))
  | closes_ask ba a :
      bid_call m = Some ba -> s_asks st !! (ba_coll ba, ba_tok ba) = Some a -> k_type a = FixedPrice ->
      k_active a = true -> live e (k_expires a) -> (forall r, k_reserve a = Some r -> r = s) ->
      funds = [native (k_price a)] -> owns v (k_seller a) (ba_coll ba) (ba_tok ba) -> ba_finder ba <> Some s ->
      closes v e s funds st m (Deal (ba_coll ba) (ba_tok ba) (k_price a) (k_seller a) (default (k_seller a) (k_recipient a))
        s (default s (ba_to ba)) (ba_finder ba) (k_finders a)).
(** A bidding caller first gets the previous bid back. *)
Definition refund_first (st : state) (m : msg) (s : addr) : list cmsg :=
  match bid_call m with Some ba => refund_of st (ba_coll ba) (ba_tok ba) s | None => [] end.
Definition deal_split (st : state) (ci : collection_info) (d : deal) : split :=
  split_of (sp_trading_fee (s_params st)) (d_price d) (d_finder d) (d_bps d) (ci_royalty ci).
(** All messages of a sale but the hook calls. *)
Definition deal_msgs (x : ext) (st : state) (m : msg) (s : addr) (ci : collection_info) (d : deal) : list cmsg :=
  refund_first st m s ++ split_msgs x (deal_split st ci d) (d_finder d) (d_seller_to d) ++
  [MNft (d_coll d) (pretty (d_tok d)) (d_buyer_to d)].

(** * Who may make a call *)
Definition authorised (v : view) (s : addr) (st : state) (m : msg) : Prop :=
  match m with
  | SyncAsk _ _ | RemoveStaleAsk _ _ | RemoveStaleBid _ _ _ | RemoveStaleCollectionBid _ _ => operator st s
  | SetAsk _ coll tok _ _ _ _ _ | RemoveAsk coll tok | UpdateAskPrice coll tok _
  | AcceptBid coll tok _ _ | AcceptCollectionBid coll tok _ _ | RejectBid coll tok _ => owns v s coll tok
  | RemoveBid coll tok => exists b, s_bids st !! (coll, tok, s) = Some b
  | RemoveCollectionBid coll => exists b, s_cbids st !! (coll, s) = Some b
  | SetBid _ _ _ _ _ | BuyNow _ _ _ _ _ | BuyFor _ _ _ _ _ _ | SetCollectionBid _ _ _ => True
  end.

(** * How orders came about *)
Section Origins.
Context (p : params) (x : ext).
(** [b] was placed by a call of its bidder within the limits of that time. *)
Definition bid_origin (st : state) (b : bid) : Prop :=
  exists st0 st1 v e m msgs ba, v1_history p x st0 /\ bid_call m = Some ba /\
    execute p x v e (b_bidder b) [native (b_price b)] st0 m = Ok (st1, msgs) /\
    s_bids st1 !! (b_coll b, b_tok b, b_bidder b) = Some b /\ rtc (v1_call p x) st1 st /\
    sp_min_price (s_params st0) <= b_price b /\ in_window (sp_bid_expiry (s_params st0)) (e_time e) (b_expires b) /\
    finder_allowed st0 (b_finders b).
Definition cbid_origin (st : state) (b : cbid) : Prop :=
  exists st0 st1 v e msgs, v1_history p x st0 /\
    execute p x v e (cb_bidder b) [native (cb_price b)] st0 (SetCollectionBid (cb_coll b) (cb_expires b) (cb_finders b)) = Ok (st1, msgs) /\
    s_cbids st1 !! (cb_coll b, cb_bidder b) = Some b /\ rtc (v1_call p x) st1 st /\
    sp_min_price (s_params st0) <= cb_price b /\ in_window (sp_bid_expiry (s_params st0)) (e_time e) (cb_expires b) /\
    finder_allowed st0 (cb_finders b).
(** The listing that created the ask: by its seller, who owned the NFT and had approved the marketplace. *)
Definition ask_origin (st : state) (a : ask) : Prop :=
  exists st0 st1 v e f c msgs, v1_history p x st0 /\
    execute p x v e (k_seller a) f st0
      (SetAsk (k_type a) (k_coll a) (k_tok a) c (k_recipient a) (k_reserve a) (k_finders a) (k_expires a)) = Ok (st1, msgs) /\
    rtc (v1_call p x) st1 st /\ owns v (k_seller a) (k_coll a) (k_tok a) /\
    q_approval v (k_coll a) (pretty (k_tok a)) (p_self p) = true /\ tradable v e (k_coll a) /\
    in_window (sp_ask_expiry (s_params st0)) (e_time e) (k_expires a) /\ finder_allowed st0 (k_finders a) /\
    sp_min_price (s_params st0) <= c_amount c <= 100000000000000.
(** The call that set its price: the listing, or an update by whoever owned the NFT then. *)
Definition price_origin (st : state) (a : ask) : Prop :=
  exists st0 st1 v e s f m msgs, v1_history p x st0 /\ execute p x v e s f st0 m = Ok (st1, msgs) /\ rtc (v1_call p x) st1 st /\
    owns v s (k_coll a) (k_tok a) /\ sp_min_price (s_params st0) <= k_price a /\
    ((exists c ty rc rs bps ex, m = SetAsk ty (k_coll a) (k_tok a) c rc rs bps ex /\ c_amount c = k_price a /\ k_price a <= 100000000000000) \/
     (exists c, m = UpdateAskPrice (k_coll a) (k_tok a) c /\ c_amount c = k_price a)).
End Origins.

(** * Hooks *)
(** A hook contract does what it likes with the world ([hk]) or fails.  Its call is a submessage sent with reply_on_error: a
    failure is rolled back and handled by the contract's [reply]. *)
Section Hooks.
Context (p : params) (hk : addr -> hook_call -> world state -> result (world state)).
Fixpoint run_subs (w : world state) (ms : list smsg) : result (world state) :=
  match ms with
  | [] => Ok w
  | SPlain m :: ms => w1 ← run_msgs p w [m]; run_subs w1 ms
  | SHook h c :: ms =>
      match hk h c w with
      | Ok w1 => run_subs w1 ms
      | Err _ => reply (reply_id c) true ;; run_subs w ms
      end
  end.
Definition run_tx_hooked (x : ext) (w : world state) (s : addr) (f : list coin) (m : msg) : result (world state) :=
  ensure (negb (bool_decide (s = p_self p)) && covers (w_bank w) s f) ETransfer ;;
  r ← execute_sub p x (view_of p (pay_in p w s f)) (env_of w) s f (w_st w) m;
  run_subs (set_st (pay_in p w s f) (fst r)) (snd r).
End Hooks.
Definition no_hooks (st : state) : state :=
  State (s_params st) (s_asks st) (s_bids st) (s_cbids st) [] [] [] [].

(** * On the chain *)
(** What account [a] receives in a sale. *)
Definition paid_to (sp : split) (finder : option addr) (seller_to a : addr) : N :=
  (match finder with Some g => if decide (g = a) then x_finder sp else 0 | None => 0 end) +
  (match x_royalty sp with Some (r, n) => if decide (r = a) then n else 0 | None => 0 end) +
  (if decide (seller_to = a) then x_seller sp else 0).
Definition refund_due (st : state) (m : msg) (s : addr) : N :=
  match bid_call m with
  | Some ba => match s_bids st !! (ba_coll ba, ba_tok ba, s) with Some b => b_price b | None => 0 end
  | None => 0
  end.
Definition split_total (sp : split) : N :=
  x_fee sp + x_finder sp + match x_royalty sp with Some (_, n) => n | None => 0 end + x_seller sp.
(** The bank after the deal: the buyer's coins came in, the parts went out, the fee is burnt, a replaced bid came back. *)
Definition deal_bank (p : params) (st : state) (m : msg) (s : addr) (f : list coin) (sp : split) (d : deal)
    (before after : addr -> denom -> N) : Prop :=
  (forall a, after a "ustars" + (if decide (a = s) then amt f "ustars" else 0) +
             (if decide (a = p_self p) then split_total sp + refund_due st m s else 0) =
             before a "ustars" + (if decide (a = p_self p) then amt f "ustars" else 0) +
             paid_to sp (d_finder d) (d_seller_to d) a + (if decide (a = s) then refund_due st m s else 0)) /\
  (forall a dn, dn <> "ustars" -> after a dn = before a dn).

(** Every part of the price can be received. *)
Record deal_payable (p : params) (x : ext) (st : state) (ci : collection_info) (d : deal) : Prop := {
  dp_size : 100 * d_price d <= U128_MAX;
  dp_fee : 0 < x_fee (deal_split st ci d) \/ x_zero_burn x = true;
  dp_finder : forall g, d_finder d = Some g -> p_blocked p g = false;
  dp_royalty : forall to n, x_royalty (deal_split st ci d) = Some (to, n) -> 0 < n /\ p_blocked p to = false;
  dp_seller : 0 < x_seller (deal_split st ci d);
  dp_seller_to : p_blocked p (d_seller_to d) = false;
}.
(** The addresses in the call are addresses; a bidding call meets the limits. *)
Definition names_ok (p : params) (m : msg) : Prop :=
  let opt o := forall a, o = Some a -> p_valid p a = true in
  match m with
  | SetBid coll _ _ finder _ | BuyNow coll _ _ finder _ => p_valid p coll = true /\ opt finder
  | BuyFor coll _ _ finder _ to => p_valid p coll = true /\ opt finder /\ p_valid p to = true
  | AcceptBid coll _ bidder finder | AcceptCollectionBid coll _ bidder finder =>
      p_valid p coll = true /\ p_valid p bidder = true /\ opt finder
  | _ => True
  end.
Definition limits_ok (e : env) (st : state) (m : msg) (price : N) : Prop :=
  forall ba, bid_call m = Some ba -> finder_allowed st (ba_bps ba) /\ sp_min_price (s_params st) <= price /\
    in_window (sp_bid_expiry (s_params st)) (e_time e) (ba_expires ba) /\
    e_time e + er_max (sp_bid_expiry (s_params st)) * 1000000000 <= U64_MAX.
(** [n] came back to [who]; nothing else moved. *)
Definition paid_back (p : params) (w w1 : world state) (who : addr) (n : N) : Prop :=
  (forall a, w_bank w1 a "ustars" + (if decide (a = p_self p) then n else 0) = w_bank w a "ustars" + (if decide (a = who) then n else 0)) /\
  (forall a dn, dn <> "ustars" -> w_bank w1 a dn = w_bank w a dn) /\ (forall c t, w_nft w1 c t = w_nft w c t).

(** [n1] went to [a1] and [n2] to [a2]; nothing else moved. *)
Definition cleaned (p : params) (w w1 : world state) (a1 : addr) (n1 : N) (a2 : addr) (n2 : N) : Prop :=
  (forall a, w_bank w1 a "ustars" + (if decide (a = p_self p) then n1 + n2 else 0) =
             w_bank w a "ustars" + (if decide (a = a1) then n1 else 0) + (if decide (a = a2) then n2 else 0)) /\
  (forall a dn, dn <> "ustars" -> w_bank w1 a dn = w_bank w a dn) /\ (forall c t, w_nft w1 c t = w_nft w c t).

(** * Listings *)
(** A client reads a listing page by page, asking for what comes after the last row seen. *)
Fixpoint page_walk {O B} (query : option O -> result (list B)) (offset : B -> O) (start : option O) (fuel : nat) : list B :=
  match fuel with
  | Datatypes.O => []
  | Datatypes.S fuel =>
      match query start with
      | Err _ => []
      | Ok rows => match last rows with None => [] | Some y => rows ++ page_walk query offset (Some (offset y)) fuel end
      end
  end.
(** Exactly the matching rows, in strict order. *)
Definition lists_all {B} (rel : B -> B -> Prop) (matching : B -> Prop) (rows : list B) : Prop :=
  StronglySorted rel rows /\ forall y, y ∈ rows <-> matching y.
Definition page_size (limit : option N) : nat := N.to_nat (N.min (default 10 limit) 100).
(** Pages are never longer than allowed. *)
Definition short_pages {O B} (query : option O -> result (list B)) (limit : option N) : Prop :=
  forall start rows, query start = Ok rows -> (length rows <= page_size limit)%nat.

(** Orders of rows.  Names of collections: shorter ones first, then bytewise. *)
Definition bytes_before (s t : string) : Prop := String.compare s t = Lt.
Definition coll_before (s t : string) : Prop :=
  (String.length s < String.length t)%nat \/ (String.length s = String.length t /\ bytes_before s t).
Definition ask_by_token (a b : ask) : Prop := k_tok a < k_tok b.
Definition ask_by_price (a b : ask) : Prop := k_price a < k_price b \/ (k_price a = k_price b /\ k_tok a < k_tok b).
Definition ask_by_nft (a b : ask) : Prop := coll_before (k_coll a) (k_coll b) \/ (k_coll a = k_coll b /\ k_tok a < k_tok b).
Definition bid_by_nft (a b : bid) : Prop := coll_before (b_coll a) (b_coll b) \/ (b_coll a = b_coll b /\ b_tok a < b_tok b).
Definition bid_by_price (a b : bid) : Prop :=
  b_price a < b_price b \/ (b_price a = b_price b /\ (b_tok a < b_tok b \/ (b_tok a = b_tok b /\ bytes_before (b_bidder a) (b_bidder b)))).
Definition bid_by_expiry (a b : bid) : Prop :=
  let sec b := b_expires b / 1000000000 in sec a < sec b \/ (sec a = sec b /\ bid_by_nft a b).
Definition cbid_by_price (a b : cbid) : Prop := cb_price a < cb_price b \/ (cb_price a = cb_price b /\ bytes_before (cb_bidder a) (cb_bidder b)).
Definition cbid_by_coll (a b : cbid) : Prop := coll_before (cb_coll a) (cb_coll b).
Definition cbid_by_expiry (a b : cbid) : Prop :=
  let sec b := cb_expires b / 1000000000 in sec a < sec b \/ (sec a = sec b /\ cbid_by_coll a b).
(** Rows. *)
Definition listed (st : state) (a : ask) : Prop := s_asks st !! (k_coll a, k_tok a) = Some a.
Definition bidding (st : state) (b : bid) : Prop := s_bids st !! (b_coll b, b_tok b, b_bidder b) = Some b.
Definition cbidding (st : state) (b : cbid) : Prop := s_cbids st !! (cb_coll b, cb_bidder b) = Some b.
Definition visible (inactive : option bool) (a : ask) : Prop := inactive = Some true \/ k_active a = true.

(** * Exact effect of calls *)
(** Outgoing messages: plain ones, and what the registered hooks are told. *)
Definition plainly (ms : list cmsg) : list smsg := map SPlain ms.
Definition told (hooks : list addr) (c : hook_call) : list smsg := map (fun h => SHook h c) hooks.
(** Only these orders change. *)
Definition with_orders (st : state) (asks : gmap (string * N) ask) (bids : gmap (string * N * string) bid)
    (cbids : gmap (string * string) cbid) : state :=
  State (s_params st) asks bids cbids (s_ask_hooks st) (s_bid_hooks st) (s_sale_hooks st) (s_cbid_hooks st).
Definition known (p : params) (o : option string) : Prop := forall a, o = Some a -> p_valid p a = true.
Definition fair_price (st : state) (c : coin) : Prop :=
  c_denom c = "ustars" /\ 0 < c_amount c /\ sp_min_price (s_params st) <= c_amount c.
(** What remains after the royalty covers the fees. *)
Definition pays_off (rate price : N) (finder : option addr) (bps : option N) (royalty : option (addr * N)) : Prop :=
  price * rate / 10 ^ 20 + finders_cut price finder bps <=
    (match royalty with Some (_, share) => price * (10 ^ 18 - share) / 10 ^ 18 | None => price end) /\
  (forall to share, royalty = Some (to, share) -> share <= 10 ^ 18).
(** No sum or product of the call exceeds the range of its machine type. *)
Record no_overflow (e : env) (f : list coin) (st : state) : Prop := {
  ir_ask : e_time e + er_max (sp_ask_expiry (s_params st)) * 1000000000 <= U64_MAX;
  ir_bid : e_time e + er_max (sp_bid_expiry (s_params st)) * 1000000000 <= U64_MAX;
  ir_funds : 100 * amt f "ustars" <= U128_MAX;
  ir_bids : forall k b, s_bids st !! k = Some b -> 100 * b_price b <= U128_MAX;
  ir_cbids : forall k b, s_cbids st !! k = Some b -> 100 * cb_price b <= U128_MAX;
}.

Section Exact.
Context (p : params) (x : ext) (v : view) (e : env) (s : addr) (f : list coin) (st : state).

(** Listing, taking a listing down, changing its price. *)
Definition listing_does (m : msg) (st' : state) (ms : list smsg) : Prop :=
  match m with
  | SetAsk ty coll tok price rc rs bps ex =>
      let a := Ask ty coll tok s (c_amount price) rc rs bps ex true in
      let fee := sp_listing_fee (s_params st) in
      (p_valid p coll = true /\ known p rc /\ known p rs) /\
      (fair_price st price /\ c_amount price <= 100000000000000) /\
      (owns v s coll tok /\ tradable v e coll /\ q_approval v coll (pretty tok) (p_self p) = true) /\
      in_window (sp_ask_expiry (s_params st)) (e_time e) ex /\
      (f = [native fee] \/ (f = [] /\ fee = 0)) /\
      finder_allowed st bps /\ (forall r, rs = Some r -> r <> s /\ ty = FixedPrice) /\
      st' = with_orders st (<[(coll, tok) := a]> (s_asks st)) (s_bids st) (s_cbids st) /\
      ms = plainly (if fee =? 0 then [] else [MFairBurn (native fee)]) ++ told (s_ask_hooks st) (HAsk a HCreate)
  | RemoveAsk coll tok =>
      exists a, f = [] /\ owns v s coll tok /\ s_asks st !! (coll, tok) = Some a /\
        st' = with_orders st (delete (coll, tok) (s_asks st)) (s_bids st) (s_cbids st) /\
        ms = told (s_ask_hooks st) (HAsk a HDelete)
  | UpdateAskPrice coll tok price =>
      exists a, f = [] /\ owns v s coll tok /\ fair_price st price /\ s_asks st !! (coll, tok) = Some a /\
        k_active a = true /\ live e (k_expires a) /\
        let a' := Ask (k_type a) coll tok (k_seller a) (c_amount price) (k_recipient a) (k_reserve a) (k_finders a) (k_expires a) true in
        st' = with_orders st (<[(coll, tok) := a']> (s_asks st)) (s_bids st) (s_cbids st) /\
        ms = told (s_ask_hooks st) (HAsk a' HUpdate)
  | _ => False
  end.

(** The messages of a sale, then the sale hooks. *)
Definition sale_does (coll : addr) (tok price : N) (seller seller_to buyer buyer_to : addr) (finder : option addr) (bps : option N)
    (ms : list smsg) : Prop :=
  exists ci, q_info v coll = Some ci /\ pays_off (sp_trading_fee (s_params st)) price finder bps (ci_royalty ci) /\
    ms = plainly (split_msgs x (split_of (sp_trading_fee (s_params st)) price finder bps (ci_royalty ci)) finder seller_to ++
                  [MNft coll (pretty tok) buyer_to]) ++
         told (s_sale_hooks st) (HSale coll tok (native price) seller buyer).

(** Bidding on an NFT, buying it. *)
Definition bidding_does (m : msg) (st' : state) (ms : list smsg) : Prop :=
  exists ba price, bid_call m = Some ba /\
    (p_valid p (ba_coll ba) = true /\ known p (ba_finder ba) /\ known p (ba_to ba)) /\
    (f = [native price] /\ 0 < price /\ sp_min_price (s_params st) <= price) /\
    ba_finder ba <> Some s /\ finder_allowed st (ba_bps ba) /\
    in_window (sp_bid_expiry (s_params st)) (e_time e) (ba_expires ba) /\
    let refund := plainly (refund_of st (ba_coll ba) (ba_tok ba) s) in
    let b := Bid (ba_coll ba) (ba_tok ba) s price (ba_bps ba) (ba_expires ba) in
    let rests := st' = with_orders st (s_asks st) (<[(ba_coll ba, ba_tok ba, s) := b]> (s_bids st)) (s_cbids st) /\
                 ms = refund ++ told (s_bid_hooks st) (HBid b HCreate) in
    match s_asks st !! (ba_coll ba, ba_tok ba) with
    | None => ba_now ba = false /\ rests
    | Some a =>
        live e (k_expires a) /\ k_active a = true /\ (forall r, k_reserve a = Some r -> r = s) /\
        match k_type a with
        | Auction => k_price a <= price /\ rests
        | FixedPrice =>
            (price < k_price a /\ rests) \/
            (price = k_price a /\ owns v (k_seller a) (ba_coll ba) (ba_tok ba) /\
             st' = with_orders st (delete (ba_coll ba, ba_tok ba) (s_asks st)) (delete (ba_coll ba, ba_tok ba, s) (s_bids st)) (s_cbids st) /\
             exists sale, ms = refund ++ sale /\
               sale_does (ba_coll ba) (ba_tok ba) price (k_seller a) (default (k_seller a) (k_recipient a)) s (default s (ba_to ba))
                 (ba_finder ba) (k_finders a) sale)
        end
    end.

(** Withdrawing, rejecting and accepting bids; bidding on a collection. *)
Definition answer_does (m : msg) (st' : state) (ms : list smsg) : Prop :=
  match m with
  | RemoveBid coll tok =>
      exists b, f = [] /\ s_bids st !! (coll, tok, s) = Some b /\
        st' = with_orders st (s_asks st) (delete (coll, tok, s) (s_bids st)) (s_cbids st) /\
        ms = plainly [pay s (b_price b)] ++ told (s_bid_hooks st) (HBid b HDelete)
  | RejectBid coll tok who =>
      exists b, p_valid p who = true /\ f = [] /\ owns v s coll tok /\ s_bids st !! (coll, tok, who) = Some b /\
        st' = with_orders st (s_asks st) (delete (coll, tok, who) (s_bids st)) (s_cbids st) /\
        ms = plainly [pay who (b_price b)] ++ told (s_bid_hooks st) (HBid b HDelete)
  | AcceptBid coll tok who finder =>
      exists b, p_valid p who = true /\ known p finder /\ f = [] /\ owns v s coll tok /\ tradable v e coll /\
        s_bids st !! (coll, tok, who) = Some b /\ live e (b_expires b) /\
        st' = with_orders st (delete (coll, tok) (s_asks st)) (delete (coll, tok, who) (s_bids st)) (s_cbids st) /\
        sale_does coll tok (b_price b) s s who who finder (b_finders b) ms
  | SetCollectionBid coll ex bps =>
      exists price, let b := CBid coll s price bps ex in
        p_valid p coll = true /\ (f = [native price] /\ 0 < price /\ sp_min_price (s_params st) <= price) /\
        in_window (sp_bid_expiry (s_params st)) (e_time e) ex /\ finder_allowed st bps /\
        st' = with_orders st (s_asks st) (s_bids st) (<[(coll, s) := b]> (s_cbids st)) /\
        ms = plainly (crefund_of st coll s) ++ told (s_cbid_hooks st) (HCBid b HCreate)
  | RemoveCollectionBid coll =>
      exists b, f = [] /\ s_cbids st !! (coll, s) = Some b /\
        st' = with_orders st (s_asks st) (s_bids st) (delete (coll, s) (s_cbids st)) /\
        ms = plainly [pay s (cb_price b)] ++ told (s_cbid_hooks st) (HCBid b HDelete)
  | AcceptCollectionBid coll tok who finder =>
      exists b, p_valid p who = true /\ known p finder /\ f = [] /\ owns v s coll tok /\ tradable v e coll /\
        s_cbids st !! (coll, who) = Some b /\ live e (cb_expires b) /\
        st' = with_orders st (delete (coll, tok) (s_asks st)) (s_bids st) (delete (coll, who) (s_cbids st)) /\
        sale_does coll tok (cb_price b) s s who who finder (cb_finders b) ms
  | _ => False
  end.

(** Upkeep by operators. *)
Definition upkeep_does (m : msg) (st' : state) (ms : list smsg) : Prop :=
  f = [] /\ operator st s /\
  match m with
  | SyncAsk coll tok =>
      exists a, s_asks st !! (coll, tok) = Some a /\
        let ok := q_approval v coll (pretty tok) (p_self p) in
        let a' := Ask (k_type a) coll tok (k_seller a) (k_price a) (k_recipient a) (k_reserve a) (k_finders a) (k_expires a) ok in
        k_active a <> ok /\
        st' = with_orders st (<[(coll, tok) := a']> (s_asks st)) (s_bids st) (s_cbids st) /\
        ms = told (s_ask_hooks st) (HAsk a' HUpdate)
  | RemoveStaleAsk coll tok =>
      exists a, s_asks st !! (coll, tok) = Some a /\
        (q_owner v coll (pretty tok) = None \/ q_approval v coll (pretty tok) (p_self p) = false \/ ~ live e (k_expires a)) /\
        st' = with_orders st (delete (coll, tok) (s_asks st)) (s_bids st) (s_cbids st) /\
        ms = told (s_ask_hooks st) (HAsk a HDelete)
  | RemoveStaleBid coll tok who =>
      exists b, p_valid p who = true /\ s_bids st !! (coll, tok, who) = Some b /\ stale st (e_time e) (b_expires b) /\
        let reward := b_price b * sp_reward (s_params st) / 10 ^ 20 in
        st' = with_orders st (s_asks st) (delete (coll, tok, who) (s_bids st)) (s_cbids st) /\
        ms = plainly [pay who (b_price b - reward); pay s reward] ++ told (s_bid_hooks st) (HBid b HDelete)
  | RemoveStaleCollectionBid coll who =>
      exists b, p_valid p who = true /\ s_cbids st !! (coll, who) = Some b /\ stale st (e_time e) (cb_expires b) /\
        let reward := cb_price b * sp_reward (s_params st) / 10 ^ 20 in
        st' = with_orders st (s_asks st) (s_bids st) (delete (coll, who) (s_cbids st)) /\
        ms = plainly [pay who (cb_price b - reward); pay s reward] ++ told (s_cbid_hooks st) (HCBid b HDelete)
  | _ => False
  end.
End Exact.

(** Which calls are which. *)
Definition is_listing (m : msg) : Prop := match m with SetAsk _ _ _ _ _ _ _ _ | RemoveAsk _ _ | UpdateAskPrice _ _ _ => True | _ => False end.
Definition is_bidding (m : msg) : Prop := match m with SetBid _ _ _ _ _ | BuyNow _ _ _ _ _ | BuyFor _ _ _ _ _ _ => True | _ => False end.
Definition is_answer (m : msg) : Prop :=
  match m with
  | RemoveBid _ _ | RejectBid _ _ _ | AcceptBid _ _ _ _ | SetCollectionBid _ _ _ | RemoveCollectionBid _ | AcceptCollectionBid _ _ _ _ => True
  | _ => False
  end.
Definition is_upkeep (m : msg) : Prop :=
  match m with SyncAsk _ _ | RemoveStaleAsk _ _ | RemoveStaleBid _ _ _ | RemoveStaleCollectionBid _ _ => True | _ => False end.

(** ** Governance and set-up *)
Definition below {A} (o : option A) (q : A -> Prop) : Prop := forall n, o = Some n -> q n.
Definition percent (bps : N) : N := bps * 10 ^ 16.
Definition with_operators (st : state) (ops : list addr) : state :=
  let c := s_params st in
  State (SudoParams (sp_trading_fee c) (sp_ask_expiry c) (sp_bid_expiry c) ops (sp_max_finders_fee c) (sp_min_price c) (sp_stale c)
           (sp_reward c) (sp_listing_fee c))
    (s_asks st) (s_bids st) (s_cbids st) (s_ask_hooks st) (s_bid_hooks st) (s_sale_hooks st) (s_cbid_hooks st).
Definition with_hooks (st : state) (ask_hooks bid_hooks sale_hooks : list addr) : state :=
  State (s_params st) (s_asks st) (s_bids st) (s_cbids st) ask_hooks bid_hooks sale_hooks (s_cbid_hooks st).
(** [a] joins the list at its end; [a] leaves it, the others stay in order. *)
Definition joins (p : params) (l : list addr) (a : addr) (l' : list addr) : Prop := p_valid p a = true /\ a ∉ l /\ l' = l ++ [a].
Definition leaves (p : params) (l : list addr) (a : addr) (l' : list addr) : Prop :=
  p_valid p a = true /\ exists l1 l2, l = l1 ++ a :: l2 /\ a ∉ l1 /\ l' = l1 ++ l2.
Definition governs (p : params) (st : state) (m : sudo_msg) (st' : state) : Prop :=
  match m with
  | UpdateParams u =>
      let c := s_params st in
      (below (u_trading_fee_bps u) (fun n => n <= 10000) /\ below (u_max_finders_fee_bps u) (fun n => n <= 10000) /\
       below (u_reward_bps u) (fun n => n <= 10000) /\
       below (u_ask_expiry u) (fun r => er_min r <= er_max r) /\ below (u_bid_expiry u) (fun r => er_min r <= er_max r)) /\
      st' = State (SudoParams (from_option percent (sp_trading_fee c) (u_trading_fee_bps u))
                     (default (sp_ask_expiry c) (u_ask_expiry u)) (default (sp_bid_expiry c) (u_bid_expiry u))
                     (sp_operators c)   (* whatever [u_operators u] says *)
                     (from_option percent (sp_max_finders_fee c) (u_max_finders_fee_bps u))
                     (default (sp_min_price c) (u_min_price u)) (from_option DTime (sp_stale c) (u_stale u))
                     (from_option percent (sp_reward c) (u_reward_bps u)) (default (sp_listing_fee c) (u_listing_fee u)))
              (s_asks st) (s_bids st) (s_cbids st) (s_ask_hooks st) (s_bid_hooks st) (s_sale_hooks st) (s_cbid_hooks st)
  | AddOperator a => exists l, joins p (sp_operators (s_params st)) a l /\ st' = with_operators st l
  | RemoveOperator a => exists l, leaves p (sp_operators (s_params st)) a l /\ st' = with_operators st l
  | AddAskHook a => exists l, joins p (s_ask_hooks st) a l /\ st' = with_hooks st l (s_bid_hooks st) (s_sale_hooks st)
  | RemoveAskHook a => exists l, leaves p (s_ask_hooks st) a l /\ st' = with_hooks st l (s_bid_hooks st) (s_sale_hooks st)
  | AddBidHook a => exists l, joins p (s_bid_hooks st) a l /\ st' = with_hooks st (s_ask_hooks st) l (s_sale_hooks st)
  | RemoveBidHook a => exists l, leaves p (s_bid_hooks st) a l /\ st' = with_hooks st (s_ask_hooks st) l (s_sale_hooks st)
  | AddSaleHook a => exists l, joins p (s_sale_hooks st) a l /\ st' = with_hooks st (s_ask_hooks st) (s_bid_hooks st) l
  | RemoveSaleHook a => exists l, leaves p (s_sale_hooks st) a l /\ st' = with_hooks st (s_ask_hooks st) (s_bid_hooks st) l
  | Migrate => st' = st
  end.
(** A fresh contract: no orders, at most the given sale hook, the operators sorted and without repetition. *)
Definition sets_up (p : params) (m : instantiate_msg) (st : state) : Prop :=
  (im_trading_fee_bps m <= 10000 /\ im_max_finders_fee_bps m <= 10000 /\ im_reward_bps m <= 10000) /\
  (er_min (im_ask_expiry m) <= er_max (im_ask_expiry m) /\ er_min (im_bid_expiry m) <= er_max (im_bid_expiry m)) /\
  (exists secs, im_stale m = DTime secs) /\ Forall (fun a => p_valid p a = true) (im_operators m) /\ known p (im_sale_hook m) /\
  exists ops, StronglySorted bytes_before ops /\ (forall a, a ∈ ops <-> a ∈ im_operators m) /\
    st = State (SudoParams (percent (im_trading_fee_bps m)) (im_ask_expiry m) (im_bid_expiry m) ops (percent (im_max_finders_fee_bps m))
                  (im_min_price m) (im_stale m) (percent (im_reward_bps m)) (im_listing_fee m))
           ∅ ∅ ∅ [] [] (option_list (im_sale_hook m)) [].
