(** C140 for the reserve auction: the data of the contract with every account renamed. *)
From Verif Require Import Base Common RAModel AlikeSpec.

Section Renamed.
Context (r : addr -> addr).
(** The account in an optional field. *)
Definition opt_renamed (o : option addr) : option addr := match o with Some x => Some (r x) | None => None end.
Definition auction_renamed (a : auction) : auction :=
  Auction (a_coll a) (a_tok a) (r (a_seller a)) (a_reserve a) (a_duration a) (a_end a) (opt_renamed (a_recipient a))
          (match a_high a with Some h => Some (HighBid (hb_coin h) (r (hb_bidder h))) | None => None end) (a_first a).
Definition config_renamed (c : config) : config :=
  Config (r (cf_fair_burn c)) (cf_trading_fee c) (cf_increment c) (cf_min_duration c) (cf_max_duration c) (cf_extend c)
         (cf_create_fee c) (cf_max_settle c) (cf_halt_threshold c) (cf_halt_buffer c) (cf_halt_postpone c).
Definition state_renamed (st : state) : state :=
  State (config_renamed (s_config st)) (s_mins st) (s_halt st) (auction_renamed <$> s_auctions st).
(** Calls: only a creator names an account, who is to get the proceeds. *)
Definition call_renamed (m : msg) : msg :=
  match m with
  | CreateAuction coll tok reserve duration recipient => CreateAuction coll tok reserve duration (opt_renamed recipient)
  | _ => m
  end.
Definition sudo_renamed (m : sudo_msg) : sudo_msg :=
  match m with
  | UpdateParams u =>
      UpdateParams (ParamsUpdate (opt_renamed (u_fair_burn u)) (u_trading_fee u) (u_increment u) (u_min_duration u) (u_extend u)
                                 (u_create_fee u) (u_max_settle u) (u_halt_threshold u) (u_halt_buffer u) (u_halt_postpone u))
  | _ => m
  end.
End Renamed.
