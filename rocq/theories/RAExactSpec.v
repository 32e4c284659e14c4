(** The calls of the reserve auction and its block hooks as a transition relation: when each succeeds and what it does.
    Written from the English description; the handlers of RAModel are not used. *)
From Verif Require Import Base Common Chain RAModel RASpec.

Definition put_auction (st : state) (k : akey) (o : option auction) : state :=
  State (s_config st) (s_mins st) (s_halt st) (match o with Some a => <[k := a]> (s_auctions st) | None => delete k (s_auctions st) end).
Definition with_reserve (a : auction) (c : coin) : auction :=
  Auction (a_coll a) (a_tok a) (a_seller a) c (a_duration a) (a_end a) (a_recipient a) (a_high a) (a_first a).

(** The royalty of the collection can be looked up: the query answers (or its failure is forgiven), and the recipient,
    if there is one, is a valid address. *)
Definition royalty_known (p : params) (lb : lib) (v : view) (coll : addr) : Prop :=
  match q_info v coll with
  | Some ci => forall to share, ci_royalty ci = Some (to, share) -> p_valid p to = true
  | None => l_royalty_open lb = true
  end.
(** Auction [a] is processed with result [o] and messages [ms]; a sale needs to know the royalty. *)
Definition handled (p : params) (lb : lib) (v : view) (now : N) (cfg : config) (h : halt_manager) (a : auction)
    (o : option auction) (ms : list cmsg) : Prop :=
  outcome lb v now cfg h a o ms /\ (o = None -> royalty_known p lb v (a_coll a)).

(** A call by a user. *)
Inductive calls (p : params) (lb : lib) (v : view) (now : N) (sender : addr) (funds : list coin) (st : state)
    : msg -> state -> list cmsg -> Prop :=
  | opens coll tok reserve duration recipient :
      may_open p lb v now sender st coll tok reserve duration recipient ->
      pays_fee (cf_create_fee (s_config st)) funds ->
      calls p lb v now sender funds st (CreateAuction coll tok reserve duration recipient)
        (put_auction st (coll, tok) (Some (Auction coll tok sender reserve duration None recipient None None)))
        (fee_burnt (cf_create_fee (s_config st)) ++ [MNft coll tok (p_self p)])
  | reprices coll tok reserve a m :
      funds = [] -> s_auctions st !! (coll, tok) = Some a -> a_seller a = sender -> a_high a = None ->
      s_mins st !! c_denom reserve = Some m -> m <= c_amount reserve ->
      calls p lb v now sender funds st (UpdateReservePrice coll tok reserve)
        (put_auction st (coll, tok) (Some (with_reserve a reserve))) []
  | cancels coll tok a :
      funds = [] -> s_auctions st !! (coll, tok) = Some a -> a_seller a = sender -> a_high a = None ->
      calls p lb v now sender funds st (CancelAuction coll tok) (put_auction st (coll, tok) None) [MNft coll tok sender]
  | bids coll tok a n a' ms :
      s_auctions st !! (coll, tok) = Some a -> a_seller a <> sender -> funds = [Coin (c_denom (a_reserve a)) n] -> 0 < n ->
      bid_result now (s_config st) sender n a a' ms -> (forall t, a_end a' = Some t -> t <= U64_MAX) ->
      calls p lb v now sender funds st (PlaceBid coll tok) (put_auction st (coll, tok) (Some a')) ms
  | settles coll tok a o ms :
      funds = [] -> s_auctions st !! (coll, tok) = Some a -> handled p lb v now (s_config st) (s_halt st) a o ms ->
      calls p lb v now sender funds st (SettleAuction coll tok) (put_auction st (coll, tok) o) ms.

(** The oldest halt window is dropped when every auction processed ended after it. *)
Inductive windows_after (l : list auction) : list halt_window -> list halt_window -> Prop :=
  | no_window : windows_after l [] []
  | window_dropped w ws : (forall a, a ∈ l -> hw_end w < end_second a) -> windows_after l (w :: ws) ws
  | window_kept w ws a : a ∈ l -> end_second a <= hw_end w -> windows_after l (w :: ws) (w :: ws).
(** The gap since the last block is a halt. *)
Definition chain_halted (cfg : config) (prev now : N) : Prop := 0 < prev /\ prev + cf_halt_threshold cfg <= now.

(** A privileged call: a block hook, or governance. *)
Inductive sudo_calls (p : params) (lb : lib) (v : view) (now : N) (st : state) : sudo_msg -> state -> list cmsg -> Prop :=
  | begins_after_halt :
      hm_prev (s_halt st) <= t_seconds now -> chain_halted (s_config st) (hm_prev (s_halt st)) (t_seconds now) ->
      t_seconds now + cf_halt_buffer (s_config st) <= U64_MAX ->
      sudo_calls p lb v now st BeginBlock
        (State (s_config st) (s_mins st)
           (HaltManager (t_seconds now) (hm_windows (s_halt st) ++
              [HaltWindow (hm_prev (s_halt st)) (t_seconds now + cf_halt_buffer (s_config st))])) (s_auctions st)) []
  | begins :
      hm_prev (s_halt st) <= t_seconds now -> ~ chain_halted (s_config st) (hm_prev (s_halt st)) (t_seconds now) ->
      sudo_calls p lb v now st BeginBlock
        (State (s_config st) (s_mins st) (HaltManager (t_seconds now) (hm_windows (s_halt st))) (s_auctions st)) []
  | ends l os st' :
      first_due st now (cf_max_settle (s_config st)) l ->
      Forall2 (fun a o => handled p lb v now (s_config st) (s_halt st) a (fst o) (snd o)) l os ->
      processed st st' l os ->
      hm_prev (s_halt st') = hm_prev (s_halt st) ->
      windows_after l (hm_windows (s_halt st)) (hm_windows (s_halt st')) ->
      sudo_calls p lb v now st EndBlock st' (concat (snd <$> os))
  | governed m st' : governs p st m st' -> sudo_calls p lb v now st m st' [].

(** Auction [a] can be processed now: its time is over, and it ended inside a halt window, or it has a bid that can be
    split and the royalty is known. *)
Definition can_handle (p : params) (lb : lib) (v : view) (now : N) (cfg : config) (h : halt_manager) (a : auction) : Prop :=
  exists t, a_end a = Some t /\ t <= now /\
    ((halted h t /\ now + cf_halt_postpone cfg * NANOS <= U64_MAX) \/
     (~ halted h t /\ royalty_known p lb v (a_coll a) /\ exists hb sp, a_high a = Some hb /\ splits hb sp /\ rates lb v cfg a hb sp)).
(** The same, and the chain carries the payments out: nobody who gets something is a blocked account. *)
Definition can_finish (p : params) (lb : lib) (v : view) (now : N) (cfg : config) (h : halt_manager) (a : auction) : Prop :=
  exists t, a_end a = Some t /\ t <= now /\
    ((halted h t /\ now + cf_halt_postpone cfg * NANOS <= U64_MAX) \/
     (~ halted h t /\ royalty_known p lb v (a_coll a) /\ exists hb sp, a_high a = Some hb /\ splits hb sp /\ rates lb v cfg a hb sp /\
        (0 < sp_royalty sp -> p_blocked p (sp_royalty_to sp) = false) /\
        (0 < sp_seller sp -> p_blocked p (proceeds_to a) = false))).
