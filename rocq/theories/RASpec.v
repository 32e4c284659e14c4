(** Specification vocabulary for the reserve auction, independent of the handlers. *)
From stdpp Require Import relations.
From Verif Require Import Base Common Chain ChainFacts IndexRange QuerySpec RAModel.

(** * Amounts *)
Definition in_denom (d : denom) (c : coin) : N := if decide (c_denom c = d) then c_amount c else 0.
Definition ceil_div (x y : N) : N := (x + (y - 1)) / y.
(** What the contract owes for one auction: its current high bid. *)
Definition owed (d : denom) (a : auction) : N :=
  match a_high a with Some hb => in_denom d (hb_coin hb) | None => 0 end.
(** What it owes in total. *)
Definition high_total (st : state) (d : denom) : N := map_fold (fun _ a n => owed d a + n) 0 (s_auctions st).

(** * Histories *)
Section Histories.
Context (p : params) (lb : lib).

Definition ra_step : world state -> world state -> Prop := step p (execute p lb) (sudo p lb).
(** A fresh contract; it has granted no NFT approvals. *)
Definition ra_init (w : world state) : Prop :=
  (exists c mins, instantiate p c mins = Ok (w_st w)) /\ nft_wf p w.
Definition ra_reachable (w : world state) : Prop := exists w0, ra_init w0 /\ rtc ra_step w0 w.

(** The same at the level of the storage: any calls with any query answers, at any time. *)
Inductive ra_call (st st' : state) : Prop :=
  | call_execute v e sender funds m msgs :
      sender <> p_self p -> execute p lb v e sender funds st m = Ok (st', msgs) -> ra_call st st'
  | call_sudo v e m msgs : sudo p lb v e st m = Ok (st', msgs) -> ra_call st st'.
Definition ra_history (st : state) : Prop :=
  exists c mins st0, instantiate p c mins = Ok st0 /\ rtc ra_call st0 st.
End Histories.

(** A privileged call on the executable chain. *)
Definition run_sudo (p : params) (lb : lib) (w : world state) (m : sudo_msg) : result (world state) :=
  r ← sudo p lb (view_of p w) (env_of w) (w_st w) m;
  run_msgs p (set_st w (fst r)) (snd r).

(** * Auctions *)

(** All unset before the first bid; all set afterwards. *)
Inductive phase (a : auction) : Prop :=
  | waiting : a_first a = None -> a_end a = None -> a_high a = None -> phase a
  | running first end_time hb :
      a_first a = Some first -> a_end a = Some end_time -> a_high a = Some hb -> first <= end_time -> phase a.

(** The end second lies strictly inside a recorded halt window. *)
Definition halted (h : halt_manager) (t : N) : Prop :=
  exists w, w ∈ hm_windows h /\ hw_start w < t_seconds t /\ t_seconds t < hw_end w.

(** The messages of one settlement: the fee is burnt, the royalty and the rest are paid, zero parts are left
    out; the three parts make up the winning bid. *)
Record sale_split : Type := SaleSplit { sp_burn : N; sp_royalty : N; sp_seller : N; sp_royalty_to : addr }.
Definition burn_part (d : denom) (n : N) : list cmsg := if decide (n = 0) then [] else [MFairBurn (Coin d n)].
Definition pay_part (to : addr) (d : denom) (n : N) : list cmsg := if decide (n = 0) then [] else [MSend to [Coin d n]].
Definition proceeds_to (a : auction) : addr := match a_recipient a with Some r => r | None => a_seller a end.
Definition settlement (a : auction) (hb : high_bid) (sp : sale_split) : list cmsg :=
  let d := c_denom (hb_coin hb) in
  burn_part d (sp_burn sp) ++ pay_part (sp_royalty_to sp) d (sp_royalty sp) ++
  pay_part (proceeds_to a) d (sp_seller sp) ++ [MNft (a_coll a) (a_tok a) (hb_bidder hb)].
Definition splits (hb : high_bid) (sp : sale_split) : Prop :=
  sp_burn sp + sp_royalty sp + sp_seller sp = c_amount (hb_coin hb).
(** The rates: the trading fee of the configuration, and the royalty the collection advertises, if any. *)
Definition rates (lb : lib) (v : view) (cfg : config) (a : auction) (hb : high_bid) (sp : sale_split) : Prop :=
  l_fee lb (c_amount (hb_coin hb)) (cf_trading_fee cfg) = Ok (sp_burn sp) /\
  match q_info v (a_coll a) with
  | Some (CollectionInfo _ (Some (to, share))) =>
      sp_royalty_to sp = to /\ l_royalty lb (c_amount (hb_coin hb)) share = Ok (sp_royalty sp)
  | _ => sp_royalty sp = 0
  end.

(** * Due auctions and their order *)
Definition key_before (x y : akey) : Prop :=
  (String.length (fst x) < String.length (fst y))%nat \/
  (String.length (fst x) = String.length (fst y) /\
   (id_before (fst x) (fst y) \/ (fst x = fst y /\ id_before (snd x) (snd y)))).
Definition due (now : N) (a : auction) : Prop := exists t, a_end a = Some t /\ t_seconds t <= t_seconds now.
Definition end_second (a : auction) : N := match a_end a with Some t => t_seconds t | None => U64_MAX end.
(** Auction [a] comes before [b] in the end-time index. *)
Definition end_before (x y : N * akey) : Prop := fst x < fst y \/ (fst x = fst y /\ key_before (snd x) (snd y)).
Definition a_ekey (a : auction) : N * akey := (end_second a, (a_coll a, a_tok a)).

(** * Processing an auction at the end of its time *)

(** The same auction with another end time. *)
Definition with_end (a : auction) (t : N) : auction :=
  Auction (a_coll a) (a_tok a) (a_seller a) (a_reserve a) (a_duration a) (Some t) (a_recipient a) (a_high a) (a_first a).

(** What processing auction [a] at time [now] does: the auction it leaves, and the messages.  An auction that
    ended inside a halt window is postponed; any other one is sold to the high bidder. *)
Inductive outcome (lb : lib) (v : view) (now : N) (cfg : config) (h : halt_manager) (a : auction) : option auction -> list cmsg -> Prop :=
  | postponed t :
      a_end a = Some t -> t <= now -> halted h t -> now + cf_halt_postpone cfg * NANOS <= U64_MAX ->
      outcome lb v now cfg h a (Some (with_end a (now + cf_halt_postpone cfg * NANOS))) []
  | sold t hb sp :
      a_end a = Some t -> t <= now -> ~ halted h t -> a_high a = Some hb -> splits hb sp -> rates lb v cfg a hb sp ->
      outcome lb v now cfg h a None (settlement a hb sp).

(** [l] is the list of the first [limit] due auctions, in index order. *)
Record first_due (st : state) (now limit : N) (l : list auction) : Prop := {
  fd_due : forall a, a ∈ l -> s_auctions st !! (a_coll a, a_tok a) = Some a /\ due now a;
  fd_sorted : StronglySorted (fun a b => end_before (a_ekey a) (a_ekey b)) l;
  fd_limit : (length l <= N.to_nat limit)%nat;
  fd_complete : forall a, s_auctions st !! (a_coll a, a_tok a) = Some a -> due now a ->
    a ∈ l \/ (length l = N.to_nat limit /\ forall b, b ∈ l -> end_before (a_ekey b) (a_ekey a));
}.
(** [st'] is [st] after the auctions [l] were processed with results [os]. *)
Record processed (st st' : state) (l : list auction) (os : list (option auction * list cmsg)) : Prop := {
  pr_config : s_config st' = s_config st;
  pr_mins : s_mins st' = s_mins st;
  pr_done : forall i a o, l !! i = Some a -> os !! i = Some o -> s_auctions st' !! (a_coll a, a_tok a) = fst o;
  pr_other : forall k, (forall a, a ∈ l -> (a_coll a, a_tok a) <> k) -> s_auctions st' !! k = s_auctions st !! k;
}.

(** * What a settlement needs to go through *)

(** The split of the winning bid exists, and its recipients are valid and may receive coins. *)
Definition can_pay (p : params) (lb : lib) (v : view) (cfg : config) (a : auction) (hb : high_bid) : Prop :=
  (exists sp, splits hb sp /\ rates lb v cfg a hb sp) /\ p_blocked p (proceeds_to a) = false /\
  match q_info v (a_coll a) with
  | Some (CollectionInfo _ (Some (to, _))) => p_valid p to = true /\ p_blocked p to = false
  | Some _ => True
  | None => l_royalty_open lb = true
  end.
(** The auction's time is over; it can be postponed or sold. *)
Definition ready (p : params) (lb : lib) (v : view) (now : N) (cfg : config) (h : halt_manager) (a : auction) : Prop :=
  exists t, a_end a = Some t /\ t <= now /\
    ((halted h t /\ now + cf_halt_postpone cfg * NANOS <= U64_MAX) \/
     (~ halted h t /\ exists hb, a_high a = Some hb /\ can_pay p lb v cfg a hb)).

(** * Exact effect of calls *)

(** The auction after a bid of [n] by [sender] at time [now]: the first bid starts the clock; a bid close to the end
    extends it.  The previous high bid is returned in full. *)
Inductive bid_result (now : N) (cfg : config) (sender : addr) (n : N) (a : auction) : auction -> list cmsg -> Prop :=
  | first_bid :
      a_first a = None -> a_high a = None -> a_end a = None -> c_amount (a_reserve a) <= n ->
      bid_result now cfg sender n a
        (Auction (a_coll a) (a_tok a) (a_seller a) (a_reserve a) (a_duration a) (Some (now + a_duration a * NANOS)) (a_recipient a)
                 (Some (HighBid (Coin (c_denom (a_reserve a)) n) sender)) (Some now)) []
  | later_bid first hb t :
      a_first a = Some first -> a_high a = Some hb -> a_end a = Some t -> t_seconds now < t_seconds t ->
      c_amount (hb_coin hb) + ceil_div (c_amount (hb_coin hb) * cf_increment cfg) DEC_ONE <= n ->
      bid_result now cfg sender n a
        (Auction (a_coll a) (a_tok a) (a_seller a) (a_reserve a) (a_duration a)
                 (Some (if decide (t_seconds t < t_seconds now + cf_extend cfg) then now + cf_extend cfg * NANOS else t))
                 (a_recipient a) (Some (HighBid (Coin (c_denom (a_reserve a)) n) sender)) (Some first))
        [MSend (hb_bidder hb) [hb_coin hb]].

(** What governance may set. *)
Definition config_ok (c : config) : Prop :=
  0 < cf_increment c < DEC_ONE /\ 0 < cf_min_duration c /\ 0 < cf_extend c.
Definition or_old {A} (o : option A) (old : A) : A := match o with Some x => x | None => old end.
Definition updated (c : config) (u : params_update) : config :=
  Config (or_old (u_fair_burn u) (cf_fair_burn c)) (or_old (u_trading_fee u) (cf_trading_fee c))
         (or_old (u_increment u) (cf_increment c)) (or_old (u_min_duration u) (cf_min_duration c)) (cf_max_duration c)
         (or_old (u_extend u) (cf_extend c)) (or_old (u_create_fee u) (cf_create_fee c))
         (or_old (u_max_settle u) (cf_max_settle c)) (or_old (u_halt_threshold u) (cf_halt_threshold c))
         (or_old (u_halt_buffer u) (cf_halt_buffer c)) (or_old (u_halt_postpone u) (cf_halt_postpone c)).
(** Minimum prices are added only for denoms that have none, each once. *)
Definition adds_mins (m : gmap string N) (cs : list coin) (m' : gmap string N) : Prop :=
  NoDup (c_denom <$> cs) /\ (forall c, c ∈ cs -> m !! c_denom c = None) /\
  (forall d n, m' !! d = Some n <-> m !! d = Some n \/ Coin d n ∈ cs).
Definition drops_mins (m : gmap string N) (ds : list denom) (m' : gmap string N) : Prop :=
  NoDup ds /\ (forall d, d ∈ ds -> is_Some (m !! d)) /\
  (forall d n, m' !! d = Some n <-> m !! d = Some n /\ d ∉ ds).
Inductive governs (p : params) (st : state) : sudo_msg -> state -> Prop :=
  | gov_params u : config_ok (updated (s_config st) u) -> (forall s, u_fair_burn u = Some s -> p_valid p s = true) ->
      governs p st (UpdateParams u) (State (updated (s_config st) u) (s_mins st) (s_halt st) (s_auctions st))
  | gov_set cs m : adds_mins (s_mins st) cs m ->
      governs p st (SetMinReservePrices cs) (State (s_config st) m (s_halt st) (s_auctions st))
  | gov_unset ds m : drops_mins (s_mins st) ds m ->
      governs p st (UnsetMinReservePrices ds) (State (s_config st) m (s_halt st) (s_auctions st))
  | gov_migrate : governs p st Migrate st.

(** A seller may open an auction: they own the NFT, have let the contract move it, trading has started, and the terms
    are allowed.  (What happens when a query fails is up to the external crate.) *)
Record may_open (p : params) (lb : lib) (v : view) (now : N) (sender : addr) (st : state)
    (coll : addr) (tok : token) (reserve : coin) (duration : N) (recipient : option addr) : Prop := {
  mo_coll : p_valid p coll = true;
  mo_recipient : forall r, recipient = Some r -> p_valid p r = true;
  mo_owner : match q_owner v coll tok with Some o => o = sender | None => l_owner_open lb = true end;
  mo_approved : q_approval v coll tok (p_self p) = true;
  mo_free : s_auctions st !! (coll, tok) = None;
  mo_started : match q_info v coll with
               | Some ci => forall t, ci_start ci = Some t -> t <= now
               | None => l_info_open lb = true
               end;
  mo_price : exists m, s_mins st !! c_denom reserve = Some m /\ m <= c_amount reserve;
  mo_duration : cf_min_duration (s_config st) <= duration <= cf_max_duration (s_config st);
}.
(** The creation fee is paid: nothing if there is none, otherwise the first coin in its denom covers it. *)
Definition pays_fee (fee : coin) (funds : list coin) : Prop :=
  (c_amount fee = 0 /\ funds = []) \/
  (0 < c_amount fee /\ exists f1 c f2, funds = f1 ++ c :: f2 /\ Forall (fun x => c_denom x <> c_denom fee) f1 /\
     c_denom c = c_denom fee /\ c_amount fee <= c_amount c).
Definition fee_burnt (fee : coin) : list cmsg := if decide (c_amount fee = 0) then [] else [MFairBurn fee].
